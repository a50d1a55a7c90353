(** * The fields of a message *)
From Verif Require Import Base BaseFacts Lexer_Model Lexer_Spec Lexer_Proofs Swift_Model Swift_Spec Swift_Proofs Swift_Facts Swift_Facts2.
From Coq Require Import Lia ZifyBool ZifyNat ZifyN.
Ltac Zify.zify_post_hook ::= Z.div_mod_to_equations.
Open Scope Z_scope.

Definition value_type (ty : ttype) : bool :=
  ttype_eqb ty TS_ALPHA || ttype_eqb ty TS_CHARACTER || ttype_eqb ty TS_DECIMAL || ttype_eqb ty TS_NUMERIC || ttype_eqb ty TS_ALPHANUMERIC.

Lemma first_line_split v : (~ In b_cr v /\ first_line v = v) \/
  (exists w, v = first_line v ++ b_cr :: w /\ ~ In b_cr (first_line v)).
Proof.
  unfold first_line. induction v as [|c v IH]; [left; split; [intros []|reflexivity]|].
  cbn [take_while]. destruct (beq c b_cr) eqn:E; cbn [negb].
  - apply beq_true in E. subst c. right. exists v. split; [reflexivity|intros []].
  - assert (Hc : c <> b_cr) by (intros ->; discriminate).
    destruct IH as [[H1 H2]|(w & H1 & H2)].
    + left. rewrite H2. split; [intros [K|K]; [congruence|contradiction]|reflexivity].
    + right. exists w. split; [cbn [app]; now rewrite <- H1|]. intros [K|K]; [congruence|contradiction].
Qed.
Lemma in_cr_first v w : v = first_line v ++ b_cr :: w -> In b_cr v.
Proof. intros ->. apply in_or_app. right. now left. Qed.

Lemma value_line_free l x : l <> [] -> ~ In b_cr l -> code_line l = false -> value (l ++ b_cr :: x) = free_text (l ++ b_cr :: x).
Proof.
  intros H1 H2 H3. rewrite (value_line _ _ H1 H2). unfold code_line in H3. apply orb_false_iff in H3. destruct H3 as [H3 H4].
  rewrite H4, H3.
  assert (A : forallb is_digit l = false).
  { destruct (forallb is_digit l) eqn:A; [|reflexivity]. rewrite <- H3. symmetry. revert A. apply forallb_weaken.
    intros c Hc. unfold cap_or_digit. now rewrite Hc, orb_true_r. }
  assert (C : forallb is_capital l = false).
  { destruct (forallb is_capital l) eqn:C; [|reflexivity]. rewrite <- H3. symmetry. revert C. apply forallb_weaken.
    intros c Hc. unfold cap_or_digit. now rewrite Hc. }
  now rewrite A, C.
Qed.
Lemma value_line_code l x : l <> [] -> ~ In b_cr l -> code_line l = true ->
  exists ty, value (l ++ b_cr :: x) = GTok ty (List.length l) GStart /\ value_type ty = true.
Proof.
  intros H1 H2 H3. rewrite (value_line _ _ H1 H2).
  destruct (forallb is_digit l); [eexists; split; [reflexivity|destruct (boundary _); reflexivity]|].
  unfold code_line in H3. destruct (is_decimal l); [eexists; split; reflexivity|].
  destruct (forallb is_capital l); [eexists; split; reflexivity|]. rewrite orb_false_r in H3. rewrite H3.
  eexists; split; reflexivity.
Qed.

Lemma next_start_value c r : beq c b_nul = false -> beq c b_cr = false -> next_token GStart (c :: r) = value (c :: r).
Proof. intros H1 H2. cbn [next_token]. now rewrite H1, H2. Qed.

(** A permitted value is one token. *)
Lemma value_token v rest : v <> [] -> ends_text rest -> value_ok v ->
  exists ty, next_token GStart (v ++ crlf ++ rest) = GTok ty (List.length v) GStart /\ value_type ty = true.
Proof.
  intros Hne Hr (Hn & Hb & Hl).
  destruct (first_line_split v) as [[Hcr Hf]|(w & Hw & Hcr)].
  - destruct v as [|c v]; [congruence|].
    assert (Hc : beq c b_nul = false) by (destruct (beq c b_nul) eqn:E; [apply beq_true in E; subst; exfalso; apply Hn; now left|reflexivity]).
    assert (Hc2 : beq c b_cr = false) by (destruct (beq c b_cr) eqn:E; [apply beq_true in E; subst; exfalso; apply Hcr; now left|reflexivity]).
    cbn [app]. rewrite (next_start_value _ _ Hc Hc2).
    change (c :: v ++ crlf ++ rest) with ((c :: v) ++ b_cr :: b_lf :: rest).
    destruct (code_line (c :: v)) eqn:E; [now apply value_line_code|].
    rewrite (value_line_free _ _ Hne Hcr E). unfold free_text.
    change ((c :: v) ++ b_cr :: b_lf :: rest) with ((c :: v) ++ crlf ++ rest).
    rewrite (free_length_ok rest Hr (c :: v) Hn Hb). exists TS_ALPHANUMERIC. split; reflexivity.
  - specialize (Hl (in_cr_first _ _ Hw)).
    assert (Hfl : first_line v <> []) by (intros E; rewrite E in Hl; discriminate).
    pose proof (free_length_ok rest Hr v Hn Hb) as Hfree.
    set (l := first_line v) in *. clearbody l. subst v.
    rewrite <- !app_assoc in *. cbn [app] in *.
    destruct l as [|c l]; [congruence|].
    assert (Hc : beq c b_nul = false) by (destruct (beq c b_nul) eqn:E; [apply beq_true in E; subst; exfalso; apply Hn; now left|reflexivity]).
    assert (Hc2 : beq c b_cr = false) by (destruct (beq c b_cr) eqn:E; [apply beq_true in E; subst; exfalso; apply Hcr; now left|reflexivity]).
    cbn [app]. rewrite (next_start_value _ _ Hc Hc2).
    change (c :: l ++ b_cr :: w ++ crlf ++ rest) with ((c :: l) ++ b_cr :: w ++ crlf ++ rest).
    rewrite (value_line_free _ _ Hfl Hcr Hl). unfold free_text.
    cbn [app] in Hfree |- *. rewrite Hfree. exists TS_ALPHANUMERIC. split; reflexivity.
Qed.

(** And a value that is one token is permitted. *)
Lemma value_token_conv v rest ty : v <> [] -> ends_text rest ->
  next_token GStart (v ++ crlf ++ rest) = GTok ty (List.length v) GStart -> value_type ty = true -> value_ok v.
Proof.
  intros Hne Hr H Hty.
  assert (Hfirst : exists c v', v = c :: v' /\ beq c b_nul = false /\ beq c b_cr = false).
  { destruct v as [|c v']; [congruence|]. exists c, v'. cbn [app next_token] in H.
    destruct (beq c b_nul); [discriminate|]. split; [reflexivity|]. split; [reflexivity|].
    destruct (beq c b_cr); [|reflexivity]. exfalso.
    destruct (v' ++ crlf ++ rest) as [|d [|e t]]; try discriminate.
    destruct (_ || _); [discriminate|]. destruct (beq e b_dash); injection H as <- _; discriminate. }
  destruct Hfirst as (c & v' & Hv & Hc & Hc2).
  assert (Hval : value (v ++ crlf ++ rest) = GTok ty (List.length v) GStart).
  { rewrite <- H, Hv. cbn [app]. symmetry. now apply next_start_value. }
  assert (Hfree : forall x, free_text (v ++ crlf ++ rest) = GTok x (List.length v) GStart ->
     ~ In b_nul v /\ (forall u w, v = u ++ crlf ++ w -> begins_field (w ++ crlf) = false)).
  { intros x. unfold free_text. destruct (free_length (v ++ crlf ++ rest)) as [n|] eqn:E; [|discriminate].
    intros K. injection K as _ ->. now apply (free_length_bad rest). }
  destruct (first_line_split v) as [[Hcr Hf]|(w & Hw & Hcr)].
  - change (v ++ crlf ++ rest) with (v ++ b_cr :: b_lf :: rest) in Hval.
    destruct (code_line v) eqn:E.
    + split; [|split; [|intros K; contradiction]].
      * intros Hn. unfold code_line in E. apply orb_true_iff in E. destruct E as [E|E].
        { rewrite forallb_forall in E. specialize (E _ Hn). discriminate. }
        unfold is_decimal in E. pose proof (while_split is_digit v) as Hs.
        assert (Hd : forallb is_digit (take_while is_digit v) = true).
        { clear. induction v as [|x v IH]; [reflexivity|]. cbn [take_while]. destruct (is_digit x) eqn:Ex; [cbn [forallb]; now rewrite Ex|reflexivity]. }
        destruct (take_while is_digit v) as [|d ds]; [discriminate|].
        destruct (drop_while is_digit v) as [|x r]; [discriminate|].
        apply andb_true_iff in E. destruct E as [E1 E2]. apply beq_true in E1. subst x.
        rewrite <- Hs in Hn. apply in_app_or in Hn. rewrite forallb_forall in Hd, E2.
        destruct Hn as [Hn|[Hn|Hn]]; [specialize (Hd _ Hn)|discriminate|specialize (E2 _ Hn)]; discriminate.
      * intros u y Hu. exfalso. apply Hcr. rewrite Hu. apply in_or_app. right. now left.
    + rewrite (value_line_free _ _ Hne Hcr E) in Hval. destruct (Hfree _ Hval) as [F1 F2].
      split; [exact F1|]. split; [exact F2|]. intros K. contradiction.
  - assert (Hfl : first_line v <> []).
    { intros E. rewrite E in Hw. rewrite Hv in Hw. cbn [app] in Hw. injection Hw as -> _. discriminate. }
    assert (Hs : v ++ crlf ++ rest = first_line v ++ b_cr :: w ++ crlf ++ rest).
    { rewrite Hw at 1. rewrite <- app_assoc. reflexivity. }
    destruct (code_line (first_line v)) eqn:E.
    + exfalso. rewrite Hs in Hval. destruct (value_line_code _ (w ++ crlf ++ rest) Hfl Hcr E) as (ty' & K & _).
      rewrite K in Hval. injection Hval as _ Hlen.
      assert (L : List.length v = List.length (first_line v ++ b_cr :: w)) by (now rewrite <- Hw).
      rewrite app_length in L. cbn [List.length] in L. lia.
    + rewrite Hs, (value_line_free _ _ Hfl Hcr E), <- Hs in Hval. destruct (Hfree _ Hval) as [F1 F2].
      split; [exact F1|]. split; [exact F2|]. intros _. exact E.
Qed.

(** ** Tags *)
Definition field_head (t : field) : bytes :=
  [b_colon] ++ f_number t ++ (match f_letter t with Some l => [l] | None => [] end) ++ [b_colon].
Lemma field_bytes_head t : field_bytes t = field_head t ++ f_value t.
Proof. unfold field_bytes, field_head. rewrite <- !app_assoc. reflexivity. Qed.
Lemma take_while_app f a b : forallb f a = true -> (match b with c :: _ => f c = false | [] => True end) ->
  take_while f (a ++ b) = a /\ drop_while f (a ++ b) = b.
Proof.
  intros Ha Hb. induction a as [|c a IH]; cbn [app].
  - destruct b as [|c b]; [split; reflexivity|]. cbn [take_while drop_while]. rewrite Hb. split; reflexivity.
  - cbn [forallb] in Ha. apply andb_true_iff in Ha. destruct Ha as [H1 H2]. cbn [take_while drop_while]. rewrite H1.
    destruct (IH H2) as [-> ->]. split; reflexivity.
Qed.
Lemma tag_token t s : id_ok t -> next_token GTag (field_head t ++ s) = GTok TS_TAG (List.length (field_head t)) GStart.
Proof.
  intros (Hne & Hd & Hl). cbn [next_token]. unfold tag_length, field_head. cbn [app]. change (beq b_colon b_colon) with true. cbv iota.
  rewrite <- !app_assoc.
  destruct (f_number t) as [|d ds] eqn:En; [congruence|].
  destruct (f_letter t) as [l|].
  - destruct (take_while_app is_digit (d :: ds) ([l] ++ [b_colon] ++ s) Hd) as [T D].
    { cbn [app]. destruct (class_facts l) as (_ & F & _). now destruct (F Hl) as (-> & _). }
    rewrite T, D. cbn [app]. destruct (class_facts l) as (_ & F & _). destruct (F Hl) as (_ & _ & _ & _ & ->).
    rewrite Hl. change (beq b_colon b_colon) with true. cbv iota. f_equal.
    cbn [List.length]. rewrite !app_length. cbn [List.length]. lia.
  - destruct (take_while_app is_digit (d :: ds) ([b_colon] ++ s) Hd) as [T D]; [reflexivity|].
    cbn [app] in *. rewrite T, D. change (beq b_colon b_colon) with true. cbv iota. f_equal.
    cbn [List.length]. rewrite !app_length. cbn [List.length]. lia.
Qed.

(** ** The tokens of one field *)
Definition field_tokens (t : field) (ty : ttype) (p : Z) : list token :=
  mkTok TS_TAG (field_head t) p ::
  match f_value t with [] => [] | v => [mkTok ty v (p + len (field_head t))] end.

Lemma firstn_app_exact {A} (a b : list A) : firstn (List.length a) (a ++ b) = a.
Proof. rewrite firstn_app, Nat.sub_diag, firstn_all. cbn. apply app_nil_r. Qed.
Lemma skipn_app_exact {A} (a b : list A) : skipn (List.length a) (a ++ b) = b.
Proof. rewrite skipn_app, Nat.sub_diag, skipn_all. reflexivity. Qed.

Lemma tokens_step f k p a s ty k' : next_token k (a ++ s) = GTok ty (List.length a) k' ->
  (List.length (a ++ s) < f)%nat -> exists f', (List.length s < f')%nat /\
  tokens f k p (a ++ s) = mkTok ty a p :: tokens f' k' (p + len a) s.
Proof.
  intros H Hf. destruct f as [|f]; [lia|]. exists f. cbn [tokens]. rewrite H.
  destruct (next_token_bound _ _ _ _ _ H) as (Hn & _). rewrite app_length in *. split; [lia|].
  rewrite firstn_app_exact, skipn_app_exact. reflexivity.
Qed.

Lemma field_run f p t rest : id_ok t -> value_ok (f_value t) -> ends_text rest ->
  (List.length (field_bytes t ++ crlf ++ rest) < f)%nat ->
  exists ty f' , value_type ty = true /\ (List.length (crlf ++ rest) < f')%nat /\
  tokens f GTag p (field_bytes t ++ crlf ++ rest) =
  field_tokens t ty p ++ tokens f' GStart (p + len (field_bytes t)) (crlf ++ rest).
Proof.
  intros Hid Hv Hr Hf. rewrite field_bytes_head, <- app_assoc in *. rewrite len_app.
  destruct (tokens_step f GTag p (field_head t) (f_value t ++ crlf ++ rest) _ _ (tag_token t _ Hid) Hf) as (f1 & Hf1 & E).
  rewrite E. unfold field_tokens.
  destruct (f_value t) as [|c v] eqn:Ev.
  - exists TS_ALPHA, f1. split; [reflexivity|]. split; [exact Hf1|]. cbn [app]. rewrite len_nil, Z.add_0_r. reflexivity.
  - destruct (value_token (c :: v) rest ltac:(discriminate) Hr Hv) as (ty & N & Hty).
    destruct (tokens_step f1 GStart (p + len (field_head t)) (c :: v) (crlf ++ rest) _ _ N Hf1) as (f2 & Hf2 & E2).
    exists ty, f2. split; [exact Hty|]. split; [exact Hf2|]. rewrite E2. cbn [app]. do 2 f_equal.
    now rewrite Z.add_assoc.
Qed.

(** ** A message *)
(** What may follow the closing "-": nothing, or a line break. *)
Definition message_follow (s : bytes) : Prop := s = [] \/ exists t, s = crlf ++ t.
Lemma ends_text_dash s : message_follow s -> ends_text (b_dash :: s).
Proof. intros [->|[t ->]]; reflexivity. Qed.
Lemma ends_text_field t s : id_ok t -> ends_text (field_bytes t ++ s).
Proof.
  intros (Hne & Hd & _). unfold ends_text, field_bytes. destruct (f_number t) as [|d ds]; [congruence|].
  cbn [forallb] in Hd. apply andb_true_iff in Hd. destruct Hd as [Hd _].
  cbn [app crlf boundary]. rewrite Hd. change (beq b_cr b_cr) with true. change (beq b_lf b_lf) with true.
  change (beq b_colon b_dash) with false. change (beq b_colon b_colon) with true. cbn [andb orb].
  rewrite <- !app_assoc. cbn [app]. destruct ds; [|reflexivity]. destruct (f_letter t); reflexivity.
Qed.
Lemma dash_run f p s : (List.length (crlf ++ b_dash :: s) < f)%nat -> exists f', (List.length s < f')%nat /\
  tokens f GStart p (crlf ++ b_dash :: s) = mkTok TS_MESSAGE_SEPARATOR (crlf ++ [b_dash]) p :: tokens f' GStart (p + 3) s.
Proof. intros Hf. apply (tokens_step f GStart p (crlf ++ [b_dash]) s); [reflexivity|exact Hf]. Qed.
Lemma sep_run f p t s : (List.length (crlf ++ field_bytes t ++ s) < f)%nat -> exists f', (List.length (field_bytes t ++ s) < f')%nat /\
  tokens f GStart p (crlf ++ field_bytes t ++ s) = mkTok TS_TAG_SEPARATOR crlf p :: tokens f' GTag (p + 2) (field_bytes t ++ s).
Proof. intros Hf. apply (tokens_step f GStart p crlf (field_bytes t ++ s)); [|exact Hf]. reflexivity. Qed.

Lemma tags_loop_field t ty p k cur acc : value_type ty = true ->
  tags_loop (field_tokens t ty p ++ k) cur acc = tags_loop k (cur ++ field_bytes t) acc.
Proof.
  intros H. unfold field_tokens. cbn [app tags_loop tok_type tok_val]. change (ttype_eqb TS_TAG T_ERROR) with false.
  cbn [ttype_eqb orb]. rewrite field_bytes_head.
  destruct (f_value t) as [|c v]; cbn [app tags_loop tok_type tok_val]; [now rewrite app_nil_r|].
  destruct ty; try discriminate H; cbn [ttype_eqb orb]; now rewrite <- app_assoc.
Qed.
Lemma messages_loop_field t ty p k cur acc : value_type ty = true ->
  messages_loop (field_tokens t ty p ++ k) cur acc = messages_loop k (cur ++ field_bytes t) acc.
Proof.
  intros H. unfold field_tokens. cbn [app messages_loop tok_type tok_val ttype_eqb]. rewrite field_bytes_head.
  destruct (f_value t) as [|c v]; cbn [app messages_loop tok_type tok_val]; [now rewrite app_nil_r|].
  destruct ty; try discriminate H; cbn [ttype_eqb orb]; now rewrite <- app_assoc.
Qed.

Definition field_ok (t : field) : Prop := id_ok t /\ value_ok (f_value t).

Lemma body_run : forall ts f p s, ts <> [] -> Forall field_ok ts -> message_follow s ->
  (List.length (join crlf (map field_bytes ts) ++ crlf ++ b_dash :: s) < f)%nat ->
  exists toks f' p', (List.length s < f')%nat /\
  tokens f GTag p (join crlf (map field_bytes ts) ++ crlf ++ b_dash :: s) = toks ++ tokens f' GStart p' s /\
  (forall k acc, tags_loop (toks ++ k) [] acc = tags_loop k [] (acc ++ map field_bytes ts)) /\
  (forall k cur acc, messages_loop (toks ++ k) cur acc =
     messages_loop k [] (acc ++ [cur ++ join crlf (map field_bytes ts) ++ crlf ++ [b_dash]])).
Proof.
  induction ts as [|t ts IH]; intros f p s Hne Hok Hs Hf; [congruence|].
  inversion_clear Hok as [|? ? [Hid Hv] Hok'].
  destruct ts as [|t2 ts].
  - cbn [map join] in *.
    destruct (field_run f p t (b_dash :: s) Hid Hv (ends_text_dash _ Hs) Hf) as (ty & f1 & Hty & Hf1 & E).
    destruct (dash_run f1 (p + len (field_bytes t)) s Hf1) as (f2 & Hf2 & E2).
    rewrite E2 in E. exists (field_tokens t ty p ++ [mkTok TS_MESSAGE_SEPARATOR (crlf ++ [b_dash]) (p + len (field_bytes t))]), f2.
    eexists. split; [exact Hf2|]. split; [rewrite E, <- app_assoc; reflexivity|]. split.
    + intros k acc. rewrite <- app_assoc, (tags_loop_field _ _ _ _ _ _ Hty). reflexivity.
    + intros k cur acc. rewrite <- app_assoc, (messages_loop_field _ _ _ _ _ _ Hty).
      cbn [app messages_loop tok_type tok_val ttype_eqb]. now rewrite <- app_assoc.
  - assert (J : join crlf (map field_bytes (t :: t2 :: ts)) = field_bytes t ++ crlf ++ join crlf (map field_bytes (t2 :: ts))) by reflexivity.
    rewrite J in *. rewrite <- !app_assoc in *.
    assert (Hid2 : id_ok t2) by (inversion_clear Hok' as [|? ? [? _] _]; assumption).
    assert (J2 : exists z, join crlf (map field_bytes (t2 :: ts)) ++ crlf ++ b_dash :: s = field_bytes t2 ++ z).
    { destruct ts; cbn [map join]; [eexists; reflexivity|]. rewrite <- !app_assoc. eexists; reflexivity. }
    destruct J2 as [z J2].
    assert (Hr : ends_text (join crlf (map field_bytes (t2 :: ts)) ++ crlf ++ b_dash :: s)) by (rewrite J2; now apply ends_text_field).
    destruct (field_run f p t _ Hid Hv Hr Hf) as (ty & f1 & Hty & Hf1 & E).
    rewrite J2 in Hf1. destruct (sep_run f1 (p + len (field_bytes t)) t2 z Hf1) as (f2 & Hf2 & E2). rewrite <- J2 in Hf2, E2.
    destruct (IH f2 (p + len (field_bytes t) + 2) s ltac:(discriminate) Hok' Hs Hf2) as (toks & f3 & p3 & Hf3 & E3 & T & M).
    rewrite E2, E3 in E.
    exists (field_tokens t ty p ++ [mkTok TS_TAG_SEPARATOR crlf (p + len (field_bytes t))] ++ toks), f3, p3.
    split; [exact Hf3|]. split; [rewrite E, <- !app_assoc; reflexivity|]. split.
    + intros k acc. rewrite <- !app_assoc, (tags_loop_field _ _ _ _ _ _ Hty).
      cbn [app tags_loop tok_type tok_val ttype_eqb orb]. rewrite T, <- app_assoc. reflexivity.
    + intros k cur acc. rewrite <- !app_assoc, (messages_loop_field _ _ _ _ _ _ Hty).
      cbn [app messages_loop tok_type tok_val ttype_eqb]. rewrite M, <- !app_assoc. reflexivity.
Qed.

Lemma entry_run f p s : (List.length (crlf ++ s) < f)%nat -> exists f', (List.length s < f')%nat /\
  tokens f GEntry p (crlf ++ s) = mkTok TS_DATASET_START crlf p :: tokens f' GTag (p + 2) s.
Proof. intros Hf. apply (tokens_step f GEntry p crlf s); [reflexivity|exact Hf]. Qed.
Lemma tokens_nil f p : (0 < f)%nat -> tokens f GStart p [] = [mkTok T_EOF [] p].
Proof. intros H. destruct f; [lia|]. reflexivity. Qed.

Lemma extract_tags_ok ts : ts <> [] -> Forall field_ok ts ->
  extract_tags (swift_message ts) = Ok (map field_bytes ts).
Proof.
  intros Hne Hok. unfold extract_tags, drained. rewrite swift_lex_tokens. cbn [fst snd].
  unfold swift_message.
  destruct (entry_run (S (List.length (crlf ++ join crlf (map field_bytes ts) ++ crlf ++ [b_dash]))) 0
             (join crlf (map field_bytes ts) ++ crlf ++ [b_dash]) ltac:(lia)) as (f1 & Hf1 & E).
  destruct (body_run ts f1 (0 + 2) [] Hne Hok (or_introl eq_refl) Hf1) as (toks & f2 & p2 & Hf2 & E2 & T & _).
  rewrite E, E2. cbn [tags_loop tok_type tok_val ttype_eqb orb]. rewrite T, tokens_nil by exact Hf2. reflexivity.
Qed.

Lemma messages_follow ms : message_follow (List.concat (map swift_message ms)).
Proof. destruct ms as [|m ms]; [now left|]. right. unfold swift_message. cbn [map List.concat]. rewrite <- !app_assoc. eexists. reflexivity. Qed.

Lemma more_messages : forall ms f p acc, Forall (fun m => m <> [] /\ Forall field_ok m) ms ->
  (List.length (List.concat (map swift_message ms)) < f)%nat ->
  messages_loop (tokens f GStart p (List.concat (map swift_message ms))) [] acc = Ok (acc ++ map swift_message ms).
Proof.
  induction ms as [|m ms IH]; intros f p acc Hok Hf.
  - cbn [map List.concat] in *. rewrite tokens_nil by exact Hf. cbn. now rewrite app_nil_r.
  - inversion_clear Hok as [|? ? [Hne Hm] Hok']. cbn [map List.concat] in *.
    assert (Hfo : message_follow (List.concat (map swift_message ms))) by apply messages_follow.
    set (tl := List.concat (map swift_message ms)) in *.
    unfold swift_message in Hf |- * at 1. rewrite <- !app_assoc in *. cbn [app] in Hf |- *.
    destruct m as [|t m]; [congruence|].
    assert (J : exists z, join crlf (map field_bytes (t :: m)) ++ crlf ++ b_dash :: tl = field_bytes t ++ z).
    { destruct m; cbn [map join]; [eexists; reflexivity|]. rewrite <- !app_assoc. eexists; reflexivity. }
    destruct J as [z J].
    change (crlf ++ join crlf (map field_bytes (t :: m)) ++ crlf ++ b_dash :: tl)
      with (crlf ++ (join crlf (map field_bytes (t :: m)) ++ crlf ++ b_dash :: tl)) in *.
    rewrite J in Hf |- *. destruct (sep_run f p t z Hf) as (f1 & Hf1 & E). rewrite E, <- J.
    rewrite <- J in Hf1.
    destruct (body_run (t :: m) f1 (p + 2) tl Hne Hm Hfo Hf1) as (toks & f2 & p2 & Hf2 & E2 & _ & M).
    rewrite E2. cbn [messages_loop tok_type tok_val ttype_eqb]. rewrite M, (IH f2 p2 _ Hok' Hf2).
    rewrite <- app_assoc. reflexivity.
Qed.

Lemma extract_messages_ok ms : ms <> [] -> Forall (fun m => m <> [] /\ Forall field_ok m) ms ->
  extract_messages (List.concat (map swift_message ms)) = Ok (map swift_message ms).
Proof.
  intros Hne Hok. destruct ms as [|m ms]; [congruence|]. inversion_clear Hok as [|? ? [Hm1 Hm] Hok'].
  unfold extract_messages, drained. rewrite swift_lex_tokens. cbn [fst snd map List.concat].
  assert (Hfo : message_follow (List.concat (map swift_message ms))) by apply messages_follow.
  set (tl := List.concat (map swift_message ms)) in *.
  assert (Es : swift_message m ++ tl = crlf ++ (join crlf (map field_bytes m) ++ crlf ++ b_dash :: tl)).
  { unfold swift_message. rewrite <- !app_assoc. reflexivity. }
  rewrite Es. set (body := join crlf (map field_bytes m) ++ crlf ++ b_dash :: tl) in *.
  destruct (entry_run (S (List.length (crlf ++ body))) 0 body ltac:(lia)) as (f1 & Hf1 & E).
  unfold body in *.
  destruct (body_run m f1 (0 + 2) tl Hm1 Hm Hfo Hf1) as (toks & f2 & p2 & Hf2 & E2 & _ & M).
  rewrite E, E2. cbn [messages_loop tok_type tok_val ttype_eqb]. rewrite M. unfold tl.
  rewrite (more_messages ms f2 p2 _ Hok' Hf2). reflexivity.
Qed.

(** ** Exactness: any other value makes the result differ *)
Lemma tags_loop_grows : forall ts cur acc r, tags_loop ts cur acc = Ok r -> exists r', r = acc ++ r'.
Proof.
  induction ts as [|t ts IH]; intros cur acc r H; cbn [tags_loop] in H.
  - injection H as <-. exists []. now rewrite app_nil_r.
  - destruct (ttype_eqb (tok_type t) T_ERROR); [discriminate|].
    destruct (_ || _); [destruct (IH _ _ _ H) as [r' ->]; rewrite <- app_assoc; eexists; reflexivity|].
    destruct (ttype_eqb _ _); apply (IH _ _ _ H).
Qed.
Lemma free_length_le rest v n : ends_text rest -> free_length (v ++ crlf ++ rest) = Some n -> (n <= List.length v)%nat.
Proof.
  intros Hr. revert n. induction v as [|c v IH]; intros n.
  - cbn [app]. unfold crlf. cbn [app free_length]. change (beq b_cr b_nul) with false.
    unfold ends_text, crlf in Hr. cbn [app] in Hr. rewrite Hr. change (beq b_cr b_cr) with true.
    cbn [andb]. intros H. injection H as <-. simpl. lia.
  - cbn [app free_length]. destruct (beq c b_nul); [discriminate|].
    destruct (_ && _); [intros H; injection H as <-; lia|].
    destruct (free_length (v ++ crlf ++ rest)) as [m|]; [|discriminate]. cbn [option_map].
    intros H. injection H as <-. specialize (IH m eq_refl). simpl. lia.
Qed.

Lemma cons_inj {A} (x y : A) l m : x :: l = y :: m -> x = y.
Proof. intros H. now injection H. Qed.
Definition sep_type (ty : ttype) : bool := ttype_eqb ty TS_TAG_SEPARATOR || ttype_eqb ty TS_MESSAGE_SEPARATOR.
(** What can come where a value is expected. *)
Lemma start_cases v rest : v <> [] -> ends_text rest ->
  match next_token GStart (v ++ crlf ++ rest) with
  | GTok ty n k' =>
      (sep_type ty = true) \/
      (value_type ty = true /\ k' = GStart /\ (1 <= n <= List.length v)%nat /\ exists t, skipn n (v ++ crlf ++ rest) = b_cr :: t)
  | _ => True
  end.
Proof.
  intros Hne Hr. destruct (next_token GStart (v ++ crlf ++ rest)) as [ty n k'| |n] eqn:E; [|exact I|exact I].
  pose proof (next_token_bound _ _ _ _ _ E) as (Hb & _).
  destruct v as [|c v']; [congruence|]. cbn [app] in E. pose proof E as E0. cbn [next_token] in E.
  destruct (beq c b_nul) eqn:En; [discriminate|].
  destruct (beq c b_cr) eqn:Ec.
  - left. destruct (v' ++ crlf ++ rest) as [|d [|e t]]; try discriminate.
    destruct (_ || _); [discriminate|]. destruct (beq e b_dash); injection E as <- _ _; reflexivity.
  - right. set (v := c :: v') in *. change (c :: v' ++ crlf ++ rest) with (v ++ crlf ++ rest) in E.
    assert (Hfree : free_text (v ++ crlf ++ rest) = GTok ty n k' ->
      value_type ty = true /\ k' = GStart /\ (1 <= n <= List.length v)%nat /\ (exists t, skipn n (v ++ crlf ++ rest) = b_cr :: t)).
    { unfold free_text. destruct (free_length (v ++ crlf ++ rest)) as [m|] eqn:Ef; [|discriminate].
      intros K. destruct (gtok_inj _ _ _ _ _ _ K) as (<- & <- & <-).
      destruct (free_length_spec _ _ Ef) as (t & H1 & _ & _). pose proof (free_length_le _ _ _ Hr Ef).
      split; [reflexivity|]. split; [reflexivity|]. split; [lia|]. now exists t. }
    destruct (first_line_split v) as [[Hcr Hf]|(w & Hw & Hcr)].
    + change (v ++ crlf ++ rest) with (v ++ b_cr :: b_lf :: rest) in E, Hfree |- *.
      destruct (code_line v) eqn:Ecl.
      * destruct (value_line_code v (b_lf :: rest) Hne Hcr Ecl) as (ty' & K & Hty). rewrite K in E.
        destruct (gtok_inj _ _ _ _ _ _ E) as (<- & <- & <-). split; [exact Hty|]. split; [reflexivity|].
        split; [lia|]. rewrite skipn_app_exact. eexists. reflexivity.
      * rewrite (value_line_free _ _ Hne Hcr Ecl) in E. now apply Hfree.
    + assert (Hfl : first_line v <> []).
      { intros K. rewrite K in Hw. unfold v in Hw. cbn [app] in Hw. injection Hw as -> _. discriminate. }
      assert (Hs : v ++ crlf ++ rest = first_line v ++ b_cr :: w ++ crlf ++ rest).
      { rewrite Hw at 1. rewrite <- app_assoc. reflexivity. }
      destruct (code_line (first_line v)) eqn:Ecl.
      * rewrite Hs in E |- *. destruct (value_line_code _ (w ++ crlf ++ rest) Hfl Hcr Ecl) as (ty' & K & Hty). rewrite K in E.
        destruct (gtok_inj _ _ _ _ _ _ E) as (<- & <- & <-). split; [exact Hty|]. split; [reflexivity|].
        assert (L : List.length v = List.length (first_line v ++ b_cr :: w)) by (now rewrite <- Hw).
        rewrite app_length in L. split; [lia|]. rewrite skipn_app_exact. eexists. reflexivity.
      * rewrite Hs, (value_line_free _ _ Hfl Hcr Ecl), <- Hs in E. now apply Hfree.
Qed.

Lemma sep_first ts ty v p cur acc k r : sep_type ty = true -> ts = mkTok ty v p :: k ->
  tags_loop ts cur acc = Ok r -> exists r', r = acc ++ cur :: r'.
Proof.
  intros Hty -> H. cbn [tags_loop tok_type tok_val] in H.
  destruct ty; try discriminate Hty; cbn [ttype_eqb orb] in H; destruct (tags_loop_grows _ _ _ _ H) as [r' ->];
    rewrite <- app_assoc; eexists; reflexivity.
Qed.

Lemma bad_value f p t rest acc more : id_ok t -> ends_text rest -> f_value t <> [] ->
  (List.length (field_bytes t ++ crlf ++ rest) < f)%nat ->
  tags_loop (tokens f GTag p (field_bytes t ++ crlf ++ rest)) [] acc = Ok (acc ++ field_bytes t :: more) ->
  value_ok (f_value t).
Proof.
  intros Hid Hr Hne Hf H. rewrite field_bytes_head, <- app_assoc in *.
  destruct (tokens_step f GTag p (field_head t) (f_value t ++ crlf ++ rest) _ _ (tag_token t _ Hid) Hf) as (f1 & Hf1 & E).
  rewrite E in H. cbn [tags_loop tok_type tok_val ttype_eqb orb] in H. change ([] ++ field_head t) with (field_head t) in H.
  pose proof (start_cases (f_value t) rest Hne Hr) as C.
  set (v := f_value t) in *. destruct f1 as [|f1]; [lia|]. cbn [tokens] in H.
  destruct (next_token GStart (v ++ crlf ++ rest)) as [ty n k'| |n] eqn:N.
  - destruct C as [C|(C1 & C2 & C3 & (x & C4))].
    + destruct (sep_first _ _ _ _ _ _ _ _ C eq_refl H) as [r' K].
      apply app_inv_head, cons_inj, (f_equal (@List.length byte)) in K. exfalso. apply Hne.
      rewrite app_length in K. destruct v; [reflexivity|]. cbn [List.length] in K. lia.
    + subst k'. destruct (Nat.eq_dec n (List.length v)) as [->|Hn].
      { exact (value_token_conv v rest ty Hne Hr N C1). }
      exfalso. assert (Hfn : firstn n (v ++ crlf ++ rest) = firstn n v).
      { rewrite firstn_app. replace (n - List.length v)%nat with 0%nat by lia. cbn [firstn]. apply app_nil_r. }
      assert (H' : tags_loop (tokens f1 GStart (p + len (field_head t) + Z.of_nat n) (b_cr :: x)) (field_head t ++ firstn n v) acc =
                   Ok (acc ++ (field_head t ++ v) :: more)).
      { rewrite C4 in H. cbn [tags_loop tok_type tok_val] in H. rewrite Hfn in H.
        destruct ty; try discriminate C1; cbn [ttype_eqb orb] in H; exact H. }
      assert (Hlt : List.length (firstn n v) <> List.length v) by (rewrite firstn_length; lia).
      destruct f1 as [|f1].
      { cbn in H'. injection H' as K. rewrite <- (app_nil_r acc) in K at 1. apply app_inv_head in K. discriminate. }
      cbn [tokens] in H'. destruct (next_token GStart (b_cr :: x)) as [ty2 n2 k2| |n2] eqn:N2.
      * assert (Hs : sep_type ty2 = true).
        { cbn [next_token] in N2. change (beq b_cr b_nul) with false in N2. change (beq b_cr b_cr) with true in N2. cbv iota in N2.
          destruct x as [|d [|e y]]; try discriminate. destruct (_ || _); [discriminate|].
          destruct (beq e b_dash); injection N2 as <- _ _; reflexivity. }
        destruct (sep_first _ _ _ _ _ _ _ _ Hs eq_refl H') as [r' K].
        apply app_inv_head, cons_inj, app_inv_head in K. rewrite <- K in Hlt. congruence.
      * cbn in H'. discriminate.
      * destruct (next_token_eof _ _ _ N2) as (_ & [(K & _)|(y & K & _)]); discriminate.
  - cbn in H. discriminate.
  - cbn [tags_loop tok_type tok_val ttype_eqb orb] in H. injection H as K.
    rewrite <- (app_nil_r acc) in K at 1. apply app_inv_head in K. discriminate.
Qed.

Lemma value_ok_nil : value_ok [].
Proof. split; [intros []|]. split; [intros u w H; destruct u; discriminate|intros []]. Qed.

Lemma bad_values : forall ts f p acc, ts <> [] -> Forall id_ok ts ->
  (List.length (join crlf (map field_bytes ts) ++ crlf ++ [b_dash]) < f)%nat ->
  tags_loop (tokens f GTag p (join crlf (map field_bytes ts) ++ crlf ++ [b_dash])) [] acc = Ok (acc ++ map field_bytes ts) ->
  Forall (fun t => value_ok (f_value t)) ts.
Proof.
  induction ts as [|t ts IH]; intros f p acc Hne Hok Hf H; [congruence|].
  inversion_clear Hok as [|? ? Hid Hok'].
  assert (Hhead : exists rest more, join crlf (map field_bytes (t :: ts)) ++ crlf ++ [b_dash] = field_bytes t ++ crlf ++ rest /\
     ends_text rest /\ map field_bytes (t :: ts) = field_bytes t :: more).
  { destruct ts as [|t2 ts].
    - exists [b_dash], []. split; [reflexivity|]. split; [now apply ends_text_dash; left|reflexivity].
    - exists (join crlf (map field_bytes (t2 :: ts)) ++ crlf ++ [b_dash]), (map field_bytes (t2 :: ts)).
      split; [cbn [map join]; rewrite <- !app_assoc; reflexivity|]. split; [|reflexivity].
      inversion_clear Hok' as [|? ? Hid2 _].
      destruct ts; cbn [map join]; rewrite <- ?app_assoc; now apply ends_text_field. }
  destruct Hhead as (rest & more & J & Hr & Hmore).
  assert (Hv : value_ok (f_value t)).
  { destruct (f_value t) as [|c v] eqn:Ev; [exact value_ok_nil|]. rewrite <- Ev.
    rewrite J, Hmore in *. apply (bad_value f p t rest acc more Hid Hr); [rewrite Ev; discriminate|exact Hf|exact H]. }
  constructor; [exact Hv|].
  destruct ts as [|t2 ts]; [constructor|].
  clear rest more J Hr Hmore.
  assert (J : join crlf (map field_bytes (t :: t2 :: ts)) = field_bytes t ++ crlf ++ join crlf (map field_bytes (t2 :: ts))) by reflexivity.
  rewrite J in *. rewrite <- !app_assoc in *.
  assert (Hid2 : id_ok t2) by (now inversion_clear Hok').
  assert (J2 : exists z, join crlf (map field_bytes (t2 :: ts)) ++ crlf ++ [b_dash] = field_bytes t2 ++ z).
  { destruct ts; cbn [map join]; [eexists; reflexivity|]. rewrite <- !app_assoc. eexists; reflexivity. }
  destruct J2 as [z J2].
  assert (Hr : ends_text (join crlf (map field_bytes (t2 :: ts)) ++ crlf ++ [b_dash])) by (rewrite J2; now apply ends_text_field).
  destruct (field_run f p t _ Hid Hv Hr Hf) as (ty & f1 & Hty & Hf1 & E).
  rewrite J2 in Hf1. destruct (sep_run f1 (p + len (field_bytes t)) t2 z Hf1) as (f2 & Hf2 & E2). rewrite <- J2 in Hf2, E2.
  rewrite E, E2, (tags_loop_field _ _ _ _ _ _ Hty) in H. cbn [tags_loop tok_type tok_val ttype_eqb orb] in H.
  apply (IH f2 (p + len (field_bytes t) + 2) (acc ++ [field_bytes t]) ltac:(discriminate) Hok' Hf2).
  change ([] ++ field_bytes t) with (field_bytes t) in H. rewrite H, <- app_assoc. reflexivity.
Qed.

Lemma extract_tags_exact ts : ts <> [] -> Forall id_ok ts ->
  extract_tags (swift_message ts) = Ok (map field_bytes ts) -> Forall (fun t => value_ok (f_value t)) ts.
Proof.
  intros Hne Hok. unfold extract_tags, drained. rewrite swift_lex_tokens. cbn [fst snd]. unfold swift_message.
  destruct (entry_run (S (List.length (crlf ++ join crlf (map field_bytes ts) ++ crlf ++ [b_dash]))) 0
             (join crlf (map field_bytes ts) ++ crlf ++ [b_dash]) ltac:(lia)) as (f1 & Hf1 & E).
  rewrite E. cbn [tags_loop tok_type tok_val ttype_eqb orb]. intros H.
  exact (bad_values ts f1 (0 + 2) [] Hne Hok Hf1 H).
Qed.
