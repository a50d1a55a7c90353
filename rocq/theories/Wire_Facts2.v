From Verif Require Import Base BaseFacts Lexer_Model Lexer_Spec Lexer_Proofs Lexer_Facts
  Codec_Model Codec_Spec Codec_Proofs Wire_Model Wire_Spec Wire_Proofs Wire_Facts.
From Coq Require Import Lia ZifyBool ZifyNat ZifyN.
Open Scope Z_scope.
Ltac Zify.zify_post_hook ::= Z.div_mod_to_equations.

(** ** Wire forms of safe elements are chunks joined by ':' *)
Definition echunk (c : bytes) : Prop := exists e, marshal_elem e = Ok c /\ elem_safe e.
Lemma echunk_okc c : echunk c -> okc c.
Proof. intros [e [H1 H2]]. exact (chunk_good e c H1 H2). Qed.
Lemma echunk_nil : echunk [].
Proof. exists (EText []). split; [reflexivity|]. split; [intros []|reflexivity]. Qed.
Definition chunked (b : bytes) : Prop := exists cs, cs <> [] /\ Forall echunk cs /\ b = join [b_colon] cs.
Lemma chunked_nil : chunked [].
Proof. exists [[]]. split; [discriminate|]. split; [constructor; [apply echunk_nil|constructor]|reflexivity]. Qed.

Lemma join_concat c (css : list (list bytes)) : Forall (fun cs => cs <> []) css ->
  join [c] (map (join [c]) css) = join [c] (List.concat css).
Proof.
  induction 1 as [|cs css Hc H IH]; [reflexivity|].
  destruct css as [|cs2 css]; [cbn [map List.concat]; now rewrite app_nil_r|].
  cbn [map]. rewrite join_cons. cbn [map] in IH. unfold bytes in *. rewrite IH. clear IH.
  change (List.concat (cs :: cs2 :: css)) with (cs ++ List.concat (cs2 :: css)).
  remember (List.concat (cs2 :: css)) as r eqn:Er.
  assert (Hr : r <> []). { inversion H; subst. cbn [List.concat]. destruct cs2; [congruence|discriminate]. }
  clear Er H. revert Hc. induction cs as [|x [|y cs] IHc]; intros Hc; [congruence| |].
  - destruct r as [|z r]; [congruence|]. cbn [app]. now rewrite join_cons.
  - change ((x :: y :: cs) ++ r) with (x :: y :: (cs ++ r)). rewrite !join_cons.
    change (y :: cs ++ r) with ((y :: cs) ++ r). rewrite <- IHc by discriminate. now rewrite <- !app_assoc.
Qed.
Lemma chunked_css es : Forall chunked es -> exists css, es = map (join [b_colon]) css /\
  Forall (fun cs => cs <> []) css /\ Forall (Forall echunk) css.
Proof.
  induction 1 as [|e es (cs&H1&H2&H3) _ (css&->&H4&H5)].
  - exists []. repeat constructor.
  - exists (cs :: css). cbn [map]. rewrite <- H3. repeat constructor; assumption.
Qed.
Lemma chunked_join es : Forall chunked es -> chunked (join [b_colon] es).
Proof.
  intros H. destruct es as [|e es]; [apply chunked_nil|].
  destruct (chunked_css _ H) as (css&E&H4&H5). rewrite E. rewrite join_concat by assumption.
  exists (List.concat css). split; [|split; [|reflexivity]].
  - destruct css as [|cs css]; [discriminate|]. inversion H4; subst. cbn [List.concat]. destruct cs; [congruence|discriminate].
  - clear E H4. induction H5; [constructor|]. cbn [List.concat]. apply Forall_app. auto.
Qed.
Lemma strip_Forall (P : bytes -> Prop) bs : Forall P bs -> Forall P (strip bs).
Proof.
  intros H. destruct (strip_spec bs) as [k E]. rewrite E in H. apply Forall_app in H. tauto.
Qed.

Section DelemInd.
  Variable P : delem -> Prop.
  Hypothesis HE : forall e, P (DE e).
  Hypothesis HG : forall cs, Forall (fun o => match o with Some x => P x | None => True end) cs -> P (DEG cs).
  Fixpoint delem_ind2 (d : delem) : P d :=
    match d with
    | DE e => HE e
    | DEG cs => HG cs ((fix go l : Forall (fun o => match o with Some x => P x | None => True end) l :=
        match l with
        | [] => Forall_nil _
        | Some x :: r => Forall_cons (Some x) (delem_ind2 x) (go r)
        | None :: r => Forall_cons None I (go r)
        end) cs)
    end.
End DelemInd.

Lemma marshal_de_group cs : marshal_de (DEG cs) =
  do bs <- all_ok marshal_opt cs; Ok (trim_right b_colon (join [b_colon] bs)).
Proof.
  cbn [marshal_de]. assert (G : forall l,
    (fix go (l : list (option delem)) : outcome (list bytes) :=
      match l with
      | [] => Ok []
      | o :: r => do b <- match o with Some x => marshal_de x | None => Ok [] end; do bs <- go r; Ok (b :: bs)
      end) l = all_ok marshal_opt l).
  { induction l as [|o l IH]; [reflexivity|]. cbn [all_ok]. rewrite IH. reflexivity. }
  now rewrite G.
Qed.
Lemma wire_safe_group cs : wire_safe (DEG cs) <->
  Forall opt_safe cs /\ forall bs, all_ok marshal_opt cs = Ok bs -> ~ ends_with b_colon (last_present bs).
Proof.
  cbn [wire_safe]. assert (G : forall l, (fix all (l : list (option delem)) : Prop :=
    match l with [] => True | Some x :: r => wire_safe x /\ all r | None :: r => all r end) l <-> Forall opt_safe l).
  { induction l as [|[x|] l IH].
    - split; [constructor|trivial].
    - rewrite IH. split; [intros [H1 H2]; constructor; assumption|intros H; inversion H; subst; split; assumption].
    - rewrite IH. split; [intros H; constructor; [exact I|assumption]|intros H; inversion H; subst; assumption]. }
  now rewrite G.
Qed.
Lemma all_ok_Forall {A} (f : A -> outcome bytes) (P : A -> Prop) (Q : bytes -> Prop) l : forall bs,
  all_ok f l = Ok bs -> Forall P l -> (forall x b, In x l -> f x = Ok b -> P x -> Q b) -> Forall Q bs.
Proof.
  induction l as [|x l IH]; intros bs; cbn [all_ok].
  - intros H _ _. injection H as <-. constructor.
  - destruct (f x) as [b| |] eqn:E; try discriminate. cbn [obind].
    destruct (all_ok f l) as [bs'| |] eqn:E2; try discriminate. cbn [obind]. intros H HP HQ. injection H as <-.
    inversion HP; subst. constructor.
    + apply (HQ x b); [now left|assumption|assumption].
    + apply IH; [reflexivity|assumption|]. intros y c Hy. apply HQ. now right.
Qed.
Lemma safe_chunked d : forall b, marshal_de d = Ok b -> wire_safe d -> chunked b.
Proof.
  induction d as [e|cs IH] using delem_ind2; intros b Hm Hs.
  - exists [b]. split; [discriminate|]. split; [|reflexivity]. constructor; [|constructor]. exists e. auto.
  - rewrite marshal_de_group in Hm. apply wire_safe_group in Hs. destruct Hs as [Hs He].
    destruct (all_ok marshal_opt cs) as [bs| |] eqn:E; try discriminate. cbn [obind] in Hm. injection Hm as <-.
    specialize (He bs eq_refl). rewrite (trim_join_clean _ _ He). apply chunked_join, strip_Forall.
    apply (all_ok_Forall _ opt_safe _ _ _ E Hs). intros x b Hin Hx Hsx.
    rewrite Forall_forall in IH. specialize (IH x Hin). destruct x as [x|].
    + apply IH; assumption.
    + injection Hx as <-. apply chunked_nil.
Qed.
Lemma opt_chunked o b : marshal_opt o = Ok b -> opt_safe o -> chunked b.
Proof.
  destruct o as [d|]; cbn [marshal_opt opt_safe].
  - apply safe_chunked.
  - intros H _. injection H as <-. apply chunked_nil.
Qed.

(** ** Segments *)
Fixpoint spieces (css : list (list bytes)) : list (bytes * byte) :=
  match css with
  | [] => []
  | [cs] => fpieces cs b_quote
  | cs :: r => fpieces cs b_plus ++ spieces r
  end.
Lemma flatp_spieces css : css <> [] -> Forall (fun cs => cs <> []) css ->
  flatp (spieces css) = join [b_plus] (map (join [b_colon]) css) ++ [b_quote].
Proof.
  intros Hne H. induction css as [|cs [|cs2 css] IH]; [congruence| |].
  - inversion H; subst. cbn [spieces map join]. now apply flatp_fpieces.
  - inversion H; subst. change (spieces (cs :: cs2 :: css)) with (fpieces cs b_plus ++ spieces (cs2 :: css)).
    rewrite flatp_app, IH by (assumption || discriminate). rewrite flatp_fpieces by assumption.
    cbn [map]. rewrite join_cons, <- !app_assoc. reflexivity.
Qed.
Lemma okp_spieces css : Forall (Forall echunk) css -> Forall okp (spieces css).
Proof.
  intros H. induction css as [|cs [|cs2 css] IH]; [constructor| |].
  - inversion H; subst. cbn [spieces]. apply okp_fpieces; [|reflexivity]. eapply Forall_impl; [|eassumption]. apply echunk_okc.
  - inversion H; subst. change (spieces (cs :: cs2 :: css)) with (fpieces cs b_plus ++ spieces (cs2 :: css)).
    apply Forall_app. split; [|now apply IH]. apply okp_fpieces; [|reflexivity]. eapply Forall_impl; [|eassumption]. apply echunk_okc.
Qed.
Lemma elements_split_spieces css : Forall (fun cs => cs <> []) css -> last (map (join [b_colon]) css) [] <> [] ->
  forall ts tst, ptoks (spieces css) ts ->
  elements_split [] (ts ++ tst) = map (join [b_colon]) css ++ elements_split [] tst.
Proof.
  intros H. induction css as [|cs [|cs2 css] IH]; intros Hl ts tst Ht.
  - cbn in Hl. congruence.
  - inversion H; subst. cbn [spieces] in Ht. rewrite <- (app_nil_r (fpieces cs b_quote)) in Ht.
    destruct (elements_split_field cs b_quote ltac:(assumption) ltac:(auto) [] ts Ht) as [ts' [H1' H2']].
    inversion H1'; subst. rewrite H2'. cbn [map last] in *. change (beq b_quote b_plus) with false. cbv iota zeta.
    cbn [app]. destruct (join [b_colon] cs) eqn:E; [congruence|]. reflexivity.
  - inversion H; subst. change (spieces (cs :: cs2 :: css)) with (fpieces cs b_plus ++ spieces (cs2 :: css)) in Ht.
    destruct (elements_split_field cs b_plus ltac:(assumption) ltac:(auto) _ ts Ht) as [ts' [H1' H2']].
    rewrite H2'. rewrite beq_refl. cbv iota zeta. cbn [app]. rewrite (IH ltac:(assumption)); [reflexivity| |assumption].
    exact Hl.
Qed.
Lemma eof_elements t cur : tok_type t = T_EOF -> elements_split cur [t] = [].
Proof. intros H. cbn [elements_split]. now rewrite H. Qed.
Lemma eof_segments t cur : tok_type t = T_EOF -> segments_split cur [t] = [].
Proof. intros H. cbn [segments_split]. now rewrite H. Qed.
Lemma eof_group t cur : tok_type t = T_EOF -> group_split cur [t] = [].
Proof. intros H. cbn [group_split]. now rewrite H. Qed.

Lemma segment_extract_fields es : Forall chunked es -> last es [] <> [] ->
  len (join [b_plus] es ++ [b_quote]) < 2 ^ 62 ->
  segment_extract (join [b_plus] es ++ [b_quote]) = Ok es.
Proof.
  intros H Hl Hsm. destruct (chunked_css _ H) as (css&E&H4&H5).
  assert (Hne : css <> []) by (intros ->; cbn in E; subst; cbn in Hl; congruence).
  rewrite E in Hsm |- *. rewrite <- (flatp_spieces css Hne H4) in *.
  destruct (with_tokens_ok (spieces css) (elements_split []) (okp_spieces _ H5) Hsm) as (ts&t&H1&H2&H3&H6).
  unfold segment_extract. rewrite H6. f_equal. rewrite (elements_split_spieces css H4); [|congruence|assumption].
  rewrite (eof_elements _ _ H2). apply app_nil_r.
Qed.

(** A marshaled segment: one run of pieces whose only terminator is the last. *)
Definition segform (w : bytes) : Prop := exists lc c, w = flatp (lc ++ [(c, b_quote)]) /\
  Forall okp (lc ++ [(c, b_quote)]) /\ Forall (fun x => is_delimiter (snd x) = true /\ snd x <> b_quote) lc.
Lemma fpieces_form cs d : cs <> [] -> d <> b_quote -> is_delimiter d = true ->
  Forall (fun x => is_delimiter (snd x) = true /\ snd x <> b_quote) (fpieces cs d).
Proof.
  intros _ Hd1 Hd2. induction cs as [|c [|c2 cs] IH]; [constructor| |].
  - constructor; [auto|constructor].
  - change (fpieces (c :: c2 :: cs) d) with ((c, b_colon) :: fpieces (c2 :: cs) d). constructor; [|exact IH].
    split; [reflexivity|discriminate].
Qed.
Lemma fpieces_quote cs : cs <> [] -> exists lc c, fpieces cs b_quote = lc ++ [(c, b_quote)] /\
  Forall (fun x => is_delimiter (snd x) = true /\ snd x <> b_quote) lc.
Proof.
  induction cs as [|c [|c2 cs] IH]; intros H; [congruence| |].
  - exists [], c. split; [reflexivity|constructor].
  - destruct (IH ltac:(discriminate)) as (lc&c'&E&F). exists ((c, b_colon) :: lc), c'. split.
    + change (fpieces (c :: c2 :: cs) b_quote) with ((c, b_colon) :: fpieces (c2 :: cs) b_quote). now rewrite E.
    + constructor; [|exact F]. split; [reflexivity|discriminate].
Qed.
Lemma spieces_quote css : css <> [] -> Forall (fun cs => cs <> []) css -> exists lc c, spieces css = lc ++ [(c, b_quote)] /\
  Forall (fun x => is_delimiter (snd x) = true /\ snd x <> b_quote) lc.
Proof.
  intros Hne H. induction css as [|cs [|cs2 css] IH]; [congruence| |].
  - inversion H; subst. now apply fpieces_quote.
  - inversion H; subst. destruct (IH ltac:(discriminate) ltac:(assumption)) as (lc&c&E&F).
    exists (fpieces cs b_plus ++ lc), c. split.
    + change (spieces (cs :: cs2 :: css)) with (fpieces cs b_plus ++ spieces (cs2 :: css)). rewrite E. apply app_assoc.
    + apply Forall_app. split; [|exact F]. apply fpieces_form; [assumption|discriminate|reflexivity].
Qed.
Lemma segform_fields es : Forall chunked es -> es <> [] -> segform (join [b_plus] es ++ [b_quote]).
Proof.
  intros H Hne0. destruct (chunked_css _ H) as (css&E&H4&H5).
  assert (Hne : css <> []) by (intros ->; cbn in E; congruence).
  destruct (spieces_quote css Hne H4) as (lc&c&F1&F2). exists lc, c.
  rewrite <- F1. rewrite (flatp_spieces css Hne H4), <- E. split; [reflexivity|]. split; [now apply okp_spieces|assumption].
Qed.

(** ** Messages *)
Lemma concat_segform ws : Forall segform ws -> exists lc, List.concat ws = flatp lc /\ Forall okp lc /\
  forall ts tst, ptoks lc ts -> segments_split [] (ts ++ tst) = ws ++ segments_split [] tst.
Proof.
  induction 1 as [|w ws (lc&c&E&F1&F2) _ (lcs&G1&G2&G3)].
  - exists []. split; [reflexivity|]. split; [constructor|]. intros ts tst H. inversion H; subst. reflexivity.
  - exists ((lc ++ [(c, b_quote)]) ++ lcs). split; [|split].
    + cbn [List.concat]. rewrite flatp_app, <- E, G1. reflexivity.
    + apply Forall_app. auto.
    + intros ts tst H. rewrite <- app_assoc in H. destruct (ptoks_app_inv _ _ _ H) as (ta&tb&->&Ha&Hb).
      rewrite <- app_assoc. rewrite (segments_split_pieces lc ta (tb ++ tst) Ha F2). cbn [app].
      cbn [app] in Hb. destruct (segments_split_end c tb tst lcs Hb) as [ts' [H1 H2]].
      rewrite H2, (G3 _ _ H1). f_equal. rewrite E, flatp_app. cbn. now rewrite app_nil_r.
Qed.
Lemma message_extract_concat ws : Forall segform ws -> len (List.concat ws) < 2 ^ 62 ->
  message_extract (List.concat ws) = Ok ws.
Proof.
  intros H Hsm. destruct (concat_segform ws H) as (lc&E&F1&F2). rewrite E in *.
  destruct (pieces_read lc F1 Hsm) as (ts&t&H1&H2&H3&H4).
  unfold message_extract, se_extract, new_segment_extractor. cbn [se_raw se_segments]. rewrite H4.
  rewrite existsb_app, (ptoks_no_error _ _ H1). cbn [existsb]. unfold is_error. rewrite H2. cbn [ttype_eqb orb snd app].
  f_equal. rewrite (F2 _ _ H1), (eof_segments _ _ H2). apply app_nil_r.
Qed.
