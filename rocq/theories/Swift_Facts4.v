(** * Extraction from arbitrary input *)
From Verif Require Import Base BaseFacts Lexer_Model Lexer_Spec Lexer_Proofs Swift_Model Swift_Spec Swift_Proofs
  Swift_Facts Swift_Facts2 Swift_Facts3.
From Coq Require Import Lia ZifyBool ZifyNat ZifyN.
Open Scope Z_scope.

Lemma ttype_eqb_true a b : ttype_eqb a b = true <-> a = b.
Proof. split; [|intros ->; destruct b; reflexivity]. destruct a, b; try discriminate; reflexivity. Qed.

Lemma skipn_nil_length {A} n (s : list A) : skipn n s = [] -> (List.length s <= n)%nat.
Proof. intros H. pose proof (skipn_length n s) as K. rewrite H in K. cbn in K. lia. Qed.
Lemma free_length_lt : forall s n, free_length s = Some n -> (n < List.length s)%nat.
Proof.
  induction s as [|c r IH]; intros n; cbn [free_length]; [discriminate|]. destruct (beq c b_nul); [discriminate|].
  destruct (_ && _); [intros H; injection H as <-; cbn; lia|]. destruct (free_length r) as [m|]; [|discriminate].
  intros H. injection H as <-. specialize (IH m eq_refl). cbn. lia.
Qed.
Lemma take_drop_length f s : (List.length (take_while f s) + List.length (drop_while f s) = List.length s)%nat.
Proof. induction s as [|c r IH]; [reflexivity|]. cbn. destruct (f c); cbn; lia. Qed.
Lemma free_text_lt s ty n k : free_text s = GTok ty n k -> (n < List.length s)%nat.
Proof.
  unfold free_text. destruct (free_length s) eqn:E; [|discriminate]. intros H. apply gtok_inj in H. destruct H as (_ & <- & _).
  now apply free_length_lt.
Qed.
(** A value never reaches the end of the input. *)
Lemma value_lt s ty n k : value s = GTok ty n k -> (n < List.length s)%nat.
Proof.
  unfold value. intros H. pose proof (take_drop_length is_digit s) as L1. pose proof (take_drop_length cap_or_digit s) as L2.
  pose proof (take_drop_length is_capital s) as L3.
  destruct (take_while is_digit s) as [|d ds]; destruct (drop_while is_digit s) as [|c r] eqn:E1; cbn [List.length] in L1.
  - destruct s as [|a t]; [discriminate|]. cbn in L1. lia.
  - destruct s as [|a t]; [discriminate|]. destruct (is_capital a); [|now apply free_text_lt in H].
    destruct (drop_while is_capital (a :: t)) as [|d0 r0]; [discriminate|]. cbn [List.length] in L3.
    destruct (beq d0 b_cr); [apply gtok_inj in H; destruct H as (_ & <- & _); cbn [List.length] in *; lia|].
    destruct (drop_while cap_or_digit (a :: t)) as [|e r1]; [discriminate|]. cbn [List.length] in L2.
    destruct (_ && _); [|now apply free_text_lt in H]. apply gtok_inj in H; destruct H as (_ & <- & _); cbn [List.length] in *; lia.
  - discriminate.
  - destruct (beq c b_comma).
    + pose proof (take_drop_length is_digit r) as L4. destruct (drop_while is_digit r) as [|e r1]; [discriminate|]. cbn [List.length] in L4.
      destruct (beq e b_cr); [|now apply free_text_lt in H]. apply gtok_inj in H; destruct H as (_ & <- & _); cbn [List.length] in *; lia.
    + destruct (boundary (c :: r)); [apply gtok_inj in H; destruct H as (_ & <- & _); cbn [List.length] in *; lia|].
      destruct (drop_while cap_or_digit s) as [|e r1]; [discriminate|]. cbn [List.length] in L2.
      destruct (beq e b_cr); [|now apply free_text_lt in H]. apply gtok_inj in H; destruct H as (_ & <- & _); cbn [List.length] in *; lia.
Qed.
Lemma take_drop f : forall s, s = take_while f s ++ drop_while f s.
Proof. induction s as [|c r IH]; [reflexivity|]. cbn. destruct (f c); [|reflexivity]. cbn. now f_equal. Qed.
Lemma tag_colon s n : tag_length s = Some n -> exists u, firstn n s = u ++ [b_colon].
Proof.
  unfold tag_length. intros H.
  assert (G : forall n0 s0, (match take_while is_digit s0 with [] => None | ds => match drop_while is_digit s0 with
      | c :: r => if beq c b_colon then Some (n0 + List.length ds + 1)%nat else if is_capital c then match r with d :: _ => if beq d b_colon then Some (n0 + List.length ds + 2)%nat else None | [] => None end else None
      | [] => None end end = Some (n0 + n)%nat) -> exists u, firstn n s0 = u ++ [b_colon]).
  { intros n0 s0 K. pose proof (take_drop is_digit s0) as E.
    destruct (take_while is_digit s0) as [|d ds] eqn:T; [discriminate|]. destruct (drop_while is_digit s0) as [|c r]; [discriminate|].
    destruct (beq c b_colon) eqn:C.
    - apply beq_true in C. subst c. assert (n = List.length (d :: ds) + 1)%nat as -> by (injection K; cbn; lia).
      exists (d :: ds). rewrite E. rewrite firstn_app_2. reflexivity.
    - destruct (is_capital c); [|discriminate]. destruct r as [|e r]; [discriminate|]. destruct (beq e b_colon) eqn:C2; [|discriminate].
      apply beq_true in C2. subst e. assert (n = List.length (d :: ds) + 2)%nat as -> by (injection K; cbn; lia).
      exists ((d :: ds) ++ [c]). rewrite E. rewrite firstn_app_2. cbn [firstn]. now rewrite <- app_assoc. }
  destruct s as [|c r]; [discriminate|]. destruct (beq c b_colon) eqn:C.
  - destruct n as [|m].
    + exfalso. destruct (take_while is_digit r); [discriminate|]. destruct (drop_while is_digit r) as [|e t]; [discriminate|].
      destruct (beq e b_colon); [discriminate|]. destruct (is_capital e); [|discriminate]. destruct t as [|e2 t]; [discriminate|].
      destruct (beq e2 b_colon); discriminate.
    + assert (K : exists u, firstn m r = u ++ [b_colon]).
      { clear G. pose proof (take_drop is_digit r) as E. destruct (take_while is_digit r) as [|d ds]; [discriminate|].
        destruct (drop_while is_digit r) as [|c0 r0]; [discriminate|]. destruct (beq c0 b_colon) eqn:C0.
        - apply beq_true in C0. subst c0. assert (m = List.length (d :: ds) + 1)%nat as -> by (injection H; cbn; lia).
          exists (d :: ds). rewrite E, firstn_app_2. reflexivity.
        - destruct (is_capital c0); [|discriminate]. destruct r0 as [|e r0]; [discriminate|]. destruct (beq e b_colon) eqn:C2; [|discriminate].
          apply beq_true in C2. subst e. assert (m = List.length (d :: ds) + 2)%nat as -> by (injection H; cbn; lia).
          exists ((d :: ds) ++ [c0]). rewrite E, firstn_app_2. cbn [firstn]. now rewrite <- app_assoc. }
      destruct K as [u K]. exists (c :: u). cbn [firstn app]. now rewrite K.
  - apply (G O). exact H.
Qed.

(** Types and values of tokens, and what can stand at the end. *)
Lemma next_token_kind k s ty n k' : next_token k s = GTok ty n k' ->
  (ty = TS_MESSAGE_SEPARATOR -> firstn n s = crlf ++ [b_dash] /\ k' = GStart) /\
  (k' = GStart -> skipn n s = [] -> ty = TS_MESSAGE_SEPARATOR \/ ty = TS_TAG /\ exists u, firstn n s = u ++ [b_colon]).
Proof.
  destruct k; cbn [next_token]; intros H.
  - destruct s as [|a [|b r]]; try discriminate. destruct (_ && _); [|discriminate]. apply gtok_inj in H. destruct H as (<- & <- & <-).
    split; discriminate.
  - destruct (tag_length s) as [m|] eqn:E; [|discriminate]. apply gtok_inj in H. destruct H as (<- & <- & <-).
    split; [discriminate|]. intros _ _. right. split; [reflexivity|]. now apply tag_colon.
  - destruct s as [|c r]; [discriminate|]. destruct (beq c b_nul); [discriminate|]. destruct (beq c b_cr) eqn:C.
    + destruct r as [|d [|e r]]; try discriminate. destruct (beq d b_lf) eqn:D; cbn [negb orb] in H; [|discriminate].
      destruct (beq e b_nul); [discriminate|]. destruct (beq e b_dash) eqn:E.
      * apply beq_true in C, D, E. subst. apply gtok_inj in H. destruct H as (<- & <- & <-). split; [intros _; split; reflexivity|]. auto.
      * apply gtok_inj in H. destruct H as (<- & <- & <-). split; discriminate.
    + assert (ty <> TS_MESSAGE_SEPARATOR).
      { intros ->. revert H. unfold value, free_text. repeat (match goal with |- context [match ?x with _ => _ end] => destruct x end; try discriminate). }
      split; [congruence|]. intros _ K. apply value_lt in H. apply skipn_nil_length in K. exfalso. lia.
Qed.
Lemma tokens_sep_value : forall f k p s t, In t (tokens f k p s) -> tok_type t = TS_MESSAGE_SEPARATOR -> tok_val t = crlf ++ [b_dash].
Proof.
  induction f as [|f IH]; intros k p s t H T; [destruct H|]. cbn [tokens] in H.
  destruct (next_token k s) as [ty n k'| |n] eqn:E.
  - destruct H as [<-|H]; [|now apply (IH _ _ _ _ H)]. cbn in T. subst ty. now apply (next_token_kind _ _ _ _ _ E).
  - destruct H as [<-|[]]. discriminate.
  - destruct H as [<-|[]]. discriminate.
Qed.
Lemma tokens_tail : forall f k p s body last, (List.length s < f)%nat -> ~ In b_nul s ->
  tokens f k p s = body ++ [last] -> tok_type last = T_EOF ->
  (body = [] /\ k = GStart /\ s = []) \/
  exists body' t, body = body' ++ [t] /\ (tok_type t = TS_MESSAGE_SEPARATOR \/ tok_type t = TS_TAG /\ exists u, tok_val t = u ++ [b_colon]).
Proof.
  induction f as [|f IH]; intros k p s body last Hf Hn H T; [lia|]. cbn [tokens] in H.
  destruct (next_token k s) as [ty n k'| |n] eqn:E.
  - destruct (next_token_bound _ _ _ _ _ E) as (Hb & _). destruct body as [|t0 body].
    + exfalso. destruct f; [lia|]. assert (L : tokens (S f) k' (p + Z.of_nat n) (skipn n s) = []) by now injection H.
      cbn [tokens] in L. destruct (next_token k' (skipn n s)); discriminate.
    + injection H as <- H. apply IH in H; [|rewrite skipn_length; lia|intros K; apply Hn; rewrite <- (firstn_skipn n s); apply in_or_app; now right|exact T].
      destruct H as [(-> & -> & Hs)|(body' & t & -> & Ht)].
      * right. exists [], (mkTok ty (firstn n s) p). split; [reflexivity|]. cbn [tok_type tok_val]. now apply (next_token_kind _ _ _ _ _ E).
      * right. exists (mkTok ty (firstn n s) p :: body'), t. split; [reflexivity|exact Ht].
  - exfalso. destruct body as [|? [|]]; cbn in H; [|discriminate|discriminate]. injection H as <-. discriminate.
  - left. destruct (next_token_eof _ _ _ E) as (-> & [(-> & ->)|(r & -> & _)]); [|exfalso; apply Hn; now left].
    destruct body as [|? [|]]; cbn in H; [auto|discriminate|discriminate].
Qed.

(** ** Messages *)
Definition is_sep (t : token) : bool := ttype_eqb (tok_type t) TS_MESSAGE_SEPARATOR.
Definition is_err (t : token) : bool := ttype_eqb (tok_type t) T_ERROR.
Fixpoint left_over (ts : list token) (cur : bytes) : bytes :=
  match ts with [] => cur | t :: r => if is_sep t then left_over r [] else left_over r (cur ++ tok_val t) end.
Lemma left_over_app : forall a b cur, left_over (a ++ b) cur = left_over b (left_over a cur).
Proof. induction a as [|t a IH]; intros b cur; [reflexivity|]. cbn. destruct (is_sep t); apply IH. Qed.
Lemma messages_loop_any : forall ts cur acc, existsb is_err ts = false ->
  (forall t, In t ts -> is_sep t = true -> tok_val t = crlf ++ [b_dash]) ->
  exists ms, messages_loop ts cur acc = Ok (acc ++ ms) /\ List.concat ms ++ left_over ts cur = cur ++ covered ts /\
    Forall (fun m => exists u, m = u ++ crlf ++ [b_dash]) ms.
Proof.
  induction ts as [|t ts IH]; intros cur acc He Hs.
  - exists []. cbn. rewrite !app_nil_r. split; [reflexivity|]. split; [reflexivity|constructor].
  - cbn [existsb] in He. apply orb_false_iff in He. destruct He as [He1 He2]. cbn [messages_loop left_over].
    unfold is_err in He1. rewrite He1. fold (is_sep t). destruct (is_sep t) eqn:S.
    + destruct (IH [] (acc ++ [cur ++ tok_val t]) He2 (fun x Hx => Hs x (or_intror Hx))) as (ms & E & C & F).
      exists ((cur ++ tok_val t) :: ms). rewrite E, <- app_assoc. split; [reflexivity|]. split.
      * cbn [List.concat]. rewrite <- app_assoc, C. unfold covered. cbn. now rewrite <- app_assoc.
      * constructor; [|exact F]. exists cur. f_equal. apply Hs; [now left|exact S].
    + destruct (IH (cur ++ tok_val t) acc He2 (fun x Hx => Hs x (or_intror Hx))) as (ms & E & C & F).
      exists ms. split; [exact E|]. split; [|exact F]. rewrite C. unfold covered. cbn. now rewrite <- app_assoc.
Qed.
Lemma messages_loop_err : forall ts cur acc, existsb is_err ts = true -> messages_loop ts cur acc = Err.
Proof.
  induction ts as [|t ts IH]; intros cur acc H; [discriminate|]. cbn [existsb] in H. cbn [messages_loop]. unfold is_err in *.
  destruct (ttype_eqb (tok_type t) T_ERROR); [reflexivity|]. cbn in H. destruct (ttype_eqb _ _); now apply IH.
Qed.
Lemma err_in ts : existsb is_err ts = true <-> exists t, In t ts /\ tok_type t = T_ERROR.
Proof.
  rewrite existsb_exists. unfold is_err. split; intros (t & H & K); exists t; (split; [exact H|]); now apply ttype_eqb_true.
Qed.
Lemma extract_messages_err inp : extract_messages inp = Err <-> exists t, In t (fst (swift_lex inp)) /\ tok_type t = T_ERROR.
Proof.
  unfold extract_messages. rewrite swift_lex_tokens. unfold drained. cbn [fst snd]. rewrite <- err_in.
  destruct (existsb is_err (tokens (S (List.length inp)) GEntry 0 inp)) eqn:E.
  - rewrite messages_loop_err by exact E. tauto.
  - destruct (messages_loop_any (tokens (S (List.length inp)) GEntry 0 inp) [] [] E) as (ms & -> & _); [|split; discriminate].
    intros t Ht Hs. apply ttype_eqb_true in Hs. eapply tokens_sep_value; eauto.
Qed.
Lemma tokens_no_nul_eof inp body last : tokens (S (List.length inp)) GEntry 0 inp = body ++ [last] -> ~ In b_nul inp ->
  tok_type last = T_EOF -> tok_val last = [] /\ inp = covered (body ++ [last]).
Proof.
  intros E Hn HT. destruct (tokens_shape (S (List.length inp)) GEntry 0 inp ltac:(lia)) as (body2 & last2 & H1 & H2 & H3 & H4 & rest & H5 & H6).
  rewrite E in *. apply app_inj_tail in H1. destruct H1 as [<- <-]. destruct (H6 HT) as [[-> K]|K].
  - split; [exact K|]. now rewrite app_nil_r in H5.
  - exfalso. apply Hn. rewrite H5. unfold covered. rewrite map_app, concat_app. apply in_or_app. left. apply in_or_app. right. cbn. rewrite K. now left.
Qed.
Lemma extract_messages_any inp ms : ~ In b_nul inp -> extract_messages inp = Ok ms ->
  exists rest, inp = List.concat ms ++ rest /\ Forall (fun m => exists u, m = u ++ crlf ++ [b_dash]) ms /\
    (rest = [] \/ exists u, rest = u ++ [b_colon]).
Proof.
  intros Hn H. unfold extract_messages in H. rewrite swift_lex_tokens in H. unfold drained in H. cbn [fst snd] in H.
  set (ts := tokens (S (List.length inp)) GEntry 0 inp) in *.
  destruct (existsb is_err ts) eqn:E; [rewrite messages_loop_err in H by exact E; discriminate|].
  destruct (messages_loop_any ts [] [] E) as (ms' & E2 & C & F).
  { intros t Ht Hs. apply ttype_eqb_true in Hs. eapply tokens_sep_value; eauto. }
  assert (ms' = ms) as -> by (rewrite E2 in H; cbn in H; congruence). clear E2 H.
  destruct (tokens_shape (S (List.length inp)) GEntry 0 inp ltac:(lia)) as (body & last & H1 & H2 & H3 & H4 & _).
  fold ts in H1. assert (HT : tok_type last = T_EOF).
  { destruct H2 as [H2|H2]; [exact H2|]. assert (existsb is_err ts = true); [|congruence]. apply err_in. exists last.
    split; [rewrite H1; apply in_or_app; right; now left|exact H2]. }
  destruct (tokens_no_nul_eof inp body last H1 Hn HT) as [Hv Hi]. exists (left_over ts []). split; [rewrite C, H1; exact Hi|]. split; [exact F|].
  destruct (tokens_tail _ _ _ _ _ _ (Nat.lt_succ_diag_r _) Hn H1 HT) as [(_ & K & _)|(body' & t & -> & Ht)]; [discriminate|].
  rewrite H1, !left_over_app. cbn [left_over].
  assert (is_sep last = false) as -> by (unfold is_sep; rewrite HT; reflexivity). rewrite Hv, app_nil_r.
  destruct Ht as [Ht|(Ht & u & Hu)].
  - left. unfold is_sep. rewrite Ht. reflexivity.
  - right. unfold is_sep. rewrite Ht. cbn. rewrite Hu, app_assoc. eauto.
Qed.

(** ** Tags *)
Definition ends_tag (t : token) : bool := ttype_eqb (tok_type t) TS_TAG_SEPARATOR || ttype_eqb (tok_type t) TS_MESSAGE_SEPARATOR.
Definition is_start (t : token) : bool := ttype_eqb (tok_type t) TS_DATASET_START.
Lemma next_token_kind2 k s ty n k' : next_token k s = GTok ty n k' ->
  (ty = TS_TAG_SEPARATOR -> firstn n s = crlf) /\ (ty = TS_DATASET_START -> k = GEntry) /\ (k = GEntry -> firstn n s = crlf /\ ty = TS_DATASET_START) /\ k' <> GEntry.
Proof.
  destruct k; cbn [next_token]; intros H.
  - destruct s as [|a [|b r]]; try discriminate. destruct (beq a b_cr) eqn:A; [|discriminate]. destruct (beq b b_lf) eqn:Bq; [|discriminate].
    cbn in H. apply gtok_inj in H. destruct H as (<- & <- & <-). apply beq_true in A, Bq. subst. repeat split; discriminate.
  - destruct (tag_length s) as [m|] eqn:E; [|discriminate]. apply gtok_inj in H. destruct H as (<- & <- & <-). repeat split; discriminate.
  - destruct s as [|c r]; [discriminate|]. destruct (beq c b_nul); [discriminate|]. destruct (beq c b_cr) eqn:C.
    + destruct r as [|d [|e r]]; try discriminate. destruct (beq d b_lf) eqn:D; cbn [negb orb] in H; [|discriminate].
      destruct (beq e b_nul); [discriminate|]. apply beq_true in C, D. subst. destruct (beq e b_dash) eqn:E;
      apply gtok_inj in H; destruct H as (<- & <- & <-); repeat split; try discriminate.
    + assert (ty <> TS_TAG_SEPARATOR /\ ty <> TS_DATASET_START /\ k' = GStart) as (N1 & N2 & ->).
      { revert H. unfold value, free_text. repeat (match goal with |- context [match ?x with _ => _ end] => destruct x end; try discriminate);
        intros H; apply gtok_inj in H; destruct H as (<- & _ & <-); repeat split; discriminate. }
      repeat split; congruence.
Qed.
Lemma tokens_tag_sep : forall f k p s t, In t (tokens f k p s) ->
  (tok_type t = TS_TAG_SEPARATOR -> tok_val t = crlf) /\ (k <> GEntry -> tok_type t <> TS_DATASET_START).
Proof.
  induction f as [|f IH]; intros k p s t H; [destruct H|]. cbn [tokens] in H.
  destruct (next_token k s) as [ty n k'| |n] eqn:E.
  - destruct (next_token_kind2 _ _ _ _ _ E) as (A & C & D & G). destruct H as [<-|H]; [cbn; split; auto|].
    destruct (IH _ _ _ _ H) as [I1 I2]. split; [exact I1|]. intros _. now apply I2.
  - destruct H as [<-|[]]. split; discriminate.
  - destruct H as [<-|[]]. split; discriminate.
Qed.
Fixpoint tag_left_over (ts : list token) (cur : bytes) : bytes :=
  match ts with [] => cur | t :: r => if ends_tag t then tag_left_over r [] else tag_left_over r (cur ++ tok_val t) end.
Lemma tag_left_over_app : forall a b cur, tag_left_over (a ++ b) cur = tag_left_over b (tag_left_over a cur).
Proof. induction a as [|t a IH]; intros b cur; [reflexivity|]. cbn. destruct (ends_tag t); apply IH. Qed.
Definition separator (s : bytes) : Prop := s = crlf \/ s = crlf ++ [b_dash].
Lemma tags_loop_any : forall ts cur acc, existsb is_err ts = false -> (forall t, In t ts -> is_start t = false) ->
  (forall t, In t ts -> ends_tag t = true -> separator (tok_val t)) ->
  exists tags : list (bytes * bytes), tags_loop ts cur acc = Ok (acc ++ map fst tags) /\
    List.concat (map (fun p => fst p ++ snd p) tags) ++ tag_left_over ts cur = cur ++ covered ts /\
    Forall (fun p => separator (snd p)) tags.
Proof.
  induction ts as [|t ts IH]; intros cur acc He Hst Hs.
  - exists []. cbn. rewrite !app_nil_r. split; [reflexivity|]. split; [reflexivity|constructor].
  - cbn [existsb] in He. apply orb_false_iff in He. destruct He as [He1 He2]. cbn [tags_loop tag_left_over].
    unfold is_err in He1. rewrite He1. fold (ends_tag t). pose proof (Hst t (or_introl eq_refl)) as K. unfold is_start in K. rewrite K.
    destruct (ends_tag t) eqn:S.
    + destruct (IH [] (acc ++ [cur]) He2 (fun x Hx => Hst x (or_intror Hx)) (fun x Hx => Hs x (or_intror Hx))) as (ms & E & C & F).
      exists ((cur, tok_val t) :: ms). rewrite E, <- app_assoc. split; [reflexivity|]. split.
      * cbn [List.concat map fst snd]. rewrite <- !app_assoc, C. unfold covered. cbn. reflexivity.
      * constructor; [|exact F]. apply Hs; [now left|exact S].
    + destruct (IH (cur ++ tok_val t) acc He2 (fun x Hx => Hst x (or_intror Hx)) (fun x Hx => Hs x (or_intror Hx))) as (ms & E & C & F).
      exists ms. split; [exact E|]. split; [|exact F]. rewrite C. unfold covered. cbn. now rewrite <- app_assoc.
Qed.
Lemma tags_loop_err : forall ts cur acc, existsb is_err ts = true -> tags_loop ts cur acc = Err.
Proof.
  induction ts as [|t ts IH]; intros cur acc H; [discriminate|]. cbn [existsb] in H. cbn [tags_loop]. unfold is_err in *.
  destruct (ttype_eqb (tok_type t) T_ERROR); [reflexivity|]. cbn in H. destruct (_ || _); [now apply IH|]. destruct (ttype_eqb _ _); now apply IH.
Qed.
(** The first token is the line break at the start or an error. *)
Lemma tokens_entry inp ts : tokens (S (List.length inp)) GEntry 0 inp = ts -> existsb is_err ts = false ->
  exists r f p s, ts = mkTok TS_DATASET_START crlf 0 :: r /\ r = tokens f GTag p s.
Proof.
  intros <- He. cbn [tokens] in *. destruct (next_token GEntry inp) as [ty n k'| |n] eqn:E; [|discriminate|].
  - destruct (next_token_kind2 _ _ _ _ _ E) as (_ & _ & D & _). destruct (D eq_refl) as [-> ->].
    assert (k' = GTag) as -> by (cbn [next_token] in E; destruct inp as [|a [|b r]]; try discriminate; destruct (_ && _); [injection E as _ <-; reflexivity|discriminate]).
    eauto 6.
  - apply next_token_eof in E. destruct E as [E _]. discriminate.
Qed.
Lemma extract_tags_err inp : extract_tags inp = Err <-> exists t, In t (fst (swift_lex inp)) /\ tok_type t = T_ERROR.
Proof.
  unfold extract_tags. rewrite swift_lex_tokens. unfold drained. cbn [fst snd]. rewrite <- err_in.
  destruct (existsb is_err (tokens (S (List.length inp)) GEntry 0 inp)) eqn:E.
  - rewrite tags_loop_err by exact E. tauto.
  - destruct (tokens_entry inp _ eq_refl E) as (r & f & p & s & E1 & E2). rewrite E1 in E |- *. cbn [tags_loop tok_type ttype_eqb orb].
    change (ttype_eqb TS_DATASET_START T_ERROR) with false. cbn iota. change (ttype_eqb TS_DATASET_START TS_TAG_SEPARATOR || ttype_eqb TS_DATASET_START TS_MESSAGE_SEPARATOR) with false. cbn iota.
    change (ttype_eqb TS_DATASET_START TS_DATASET_START) with true. cbn iota.
    cbn [existsb] in E. apply orb_false_iff in E. destruct E as [_ E].
    destruct (tags_loop_any r [] [] E) as (ms & -> & _); [| |split; discriminate].
    + intros t Ht. rewrite E2 in Ht. destruct (tokens_tag_sep _ _ _ _ _ Ht) as [_ K]. unfold is_start.
      destruct (ttype_eqb (tok_type t) TS_DATASET_START) eqn:Q; [|reflexivity]. apply ttype_eqb_true in Q. exfalso. now apply K.
    + intros t Ht Hs. rewrite E2 in Ht. unfold ends_tag in Hs. apply orb_true_iff in Hs. destruct Hs as [Hs|Hs]; apply ttype_eqb_true in Hs.
      * left. now apply (tokens_tag_sep _ _ _ _ _ Ht).
      * right. eapply tokens_sep_value; eauto.
Qed.
Lemma extract_tags_any inp tags : ~ In b_nul inp -> extract_tags inp = Ok tags ->
  exists seps rest, List.length seps = List.length tags /\ Forall separator seps /\
    inp = crlf ++ List.concat (map (fun p => fst p ++ snd p) (combine tags seps)) ++ rest /\
    (rest = [] \/ exists u, rest = u ++ [b_colon]).
Proof.
  intros Hn H. unfold extract_tags in H. rewrite swift_lex_tokens in H. unfold drained in H. cbn [fst snd] in H.
  set (ts := tokens (S (List.length inp)) GEntry 0 inp) in *.
  destruct (existsb is_err ts) eqn:E; [rewrite tags_loop_err in H by exact E; discriminate|].
  destruct (tokens_entry inp ts eq_refl E) as (r & f & p & s & E1 & E2).
  assert (Er : existsb is_err r = false) by (rewrite E1 in E; cbn [existsb] in E; apply orb_false_iff in E; tauto).
  destruct (tags_loop_any r [] [] Er) as (ms & E3 & C & F).
  { intros t Ht. rewrite E2 in Ht. destruct (tokens_tag_sep _ _ _ _ _ Ht) as [_ K]. unfold is_start.
      destruct (ttype_eqb (tok_type t) TS_DATASET_START) eqn:Q; [|reflexivity]. apply ttype_eqb_true in Q. exfalso. now apply K. }
  { intros t Ht Hs. rewrite E2 in Ht. unfold ends_tag in Hs. apply orb_true_iff in Hs. destruct Hs as [Hs|Hs]; apply ttype_eqb_true in Hs.
      * left. now apply (tokens_tag_sep _ _ _ _ _ Ht).
      * right. eapply tokens_sep_value; eauto. }
  assert (tags = map fst ms) as ->.
  { rewrite E1 in H. change (tags_loop r [] [] = Ok tags) in H. rewrite E3 in H. cbn in H. congruence. }
  destruct (tokens_shape (S (List.length inp)) GEntry 0 inp ltac:(lia)) as (body & last & H1 & H2 & H3 & H4 & _).
  fold ts in H1. assert (HT : tok_type last = T_EOF).
  { destruct H2 as [H2|H2]; [exact H2|]. assert (existsb is_err ts = true); [|congruence]. apply err_in. exists last.
    split; [rewrite H1; apply in_or_app; right; now left|exact H2]. }
  destruct (tokens_no_nul_eof inp body last H1 Hn HT) as [Hv Hi].
  exists (map snd ms), (tag_left_over r []). split; [now rewrite !map_length|]. split.
  { apply Forall_forall. intros x Hx. apply in_map_iff in Hx. destruct Hx as (q & <- & Hq). rewrite Forall_forall in F. now apply F. }
  assert (Ec : combine (map fst ms) (map snd ms) = ms) by (clear; induction ms as [|[a b] l IH]; [reflexivity|cbn; now f_equal]).
  rewrite Ec. split; [rewrite C, Hi, <- H1, E1; reflexivity|].
  destruct (tokens_tail _ _ _ _ _ _ (Nat.lt_succ_diag_r _) Hn H1 HT) as [(_ & K & _)|(body' & t & -> & Ht)]; [discriminate|].
  assert (El : tag_left_over ts [] = tag_left_over r crlf) by (rewrite E1; reflexivity).
  assert (Eq : exists body2, r = body2 ++ [last] /\ ((body2 = [] /\ t = mkTok TS_DATASET_START crlf 0) \/ exists b3, body2 = b3 ++ [t])).
  { rewrite E1 in H1. destruct body' as [|x body']; cbn [app] in H1.
    - exists []. assert (r = [last]) by congruence. split; [assumption|]. left. split; [reflexivity|congruence].
    - exists (body' ++ [t]). split; [congruence|]. right. eauto. }
  destruct Eq as (body2 & -> & [[-> ->]|(b3 & ->)]).
  - exfalso. destruct Ht as [Ht|[Ht _]]; discriminate.
  - rewrite !tag_left_over_app. cbn [tag_left_over].
    assert (ends_tag last = false) as -> by (unfold ends_tag; rewrite HT; reflexivity). rewrite Hv, app_nil_r.
    destruct Ht as [Ht|(Ht & u & Hu)].
    + left. unfold ends_tag. rewrite Ht. reflexivity.
    + right. unfold ends_tag. rewrite Ht. cbn. rewrite Hu, app_assoc. eauto.
Qed.
