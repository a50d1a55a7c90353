(** * Shape of the tokens; values and fields *)
From Verif Require Import Base BaseFacts Lexer_Model Lexer_Spec Lexer_Proofs Swift_Model Swift_Spec Swift_Proofs Swift_Facts.
From Coq Require Import Lia ZifyBool ZifyNat ZifyN.
Ltac Zify.zify_post_hook ::= Z.div_mod_to_equations.
Open Scope Z_scope.

Lemma next_token_eof k s n : next_token k s = GEof n ->
  k = GStart /\ (s = [] /\ n = 0%nat \/ exists r, s = b_nul :: r /\ n = 1%nat).
Proof.
  destruct k; cbn [next_token].
  - destruct s as [|a [|b r]]; try discriminate. now destruct (_ && _).
  - now destruct (tag_length s).
  - destruct s as [|c r].
    + intros H. injection H as <-. split; [reflexivity|]. now left.
    + destruct (beq c b_nul) eqn:E.
      * intros H. injection H as <-. apply beq_true in E. subst c. split; [reflexivity|]. right. now exists r.
      * destruct (beq c b_cr).
        { destruct r as [|d [|e r]]; try discriminate. destruct (_ || _); [discriminate|]. now destruct (beq e b_dash). }
        unfold value, free_text.
        repeat (match goal with |- context [match ?x with _ => _ end] => destruct x end; try discriminate).
Qed.

Definition swift_tokens_ok (p : Z) (s : bytes) (ts : list token) : Prop :=
  exists body last, ts = body ++ [last] /\ closing last /\
    Forall (fun t => ~ closing t /\ tok_val t <> []) body /\
    contiguous p ts /\
    (exists rest, s = covered ts ++ rest /\
       (tok_type last = T_EOF -> (rest = [] /\ tok_val last = []) \/ tok_val last = [b_nul])).

Lemma tokens_shape : forall f k p s, (List.length s < f)%nat -> swift_tokens_ok p s (tokens f k p s).
Proof.
  induction f as [|f IH]; intros k p s Hf; [lia|]. cbn [tokens].
  destruct (next_token k s) as [ty n k'| |n] eqn:E.
  - destruct (next_token_bound _ _ _ _ _ E) as (Hn & _ & _ & T1 & T2).
    destruct (IH k' (p + Z.of_nat n) (skipn n s) ltac:(rewrite skipn_length; lia)) as (body & last & H1 & H2 & H3 & H4 & rest & H5 & H6).
    exists (mkTok ty (firstn n s) p :: body), last. rewrite H1. split; [reflexivity|]. split; [exact H2|].
    split; [|split].
    + constructor; [|exact H3]. cbn [tok_val]. split; [intros [K|K]; cbn in K; congruence|].
      destruct n; [lia|]. destruct s; [simpl in Hn; lia|]. discriminate.
    + cbn [contiguous tok_pos tok_val]. split; [reflexivity|]. rewrite <- H1.
      unfold len. rewrite firstn_length_le by lia. exact H4.
    + exists rest. split; [|exact H6]. unfold covered. cbn [map List.concat tok_val]. rewrite <- app_assoc.
      rewrite H1 in H5. unfold covered in H5. rewrite <- H5. symmetry. apply firstn_skipn.
  - exists [], (mkTok T_ERROR [] p). split; [reflexivity|]. split; [now right|]. split; [constructor|].
    split; [repeat split|]. exists s. split; [reflexivity|]. discriminate.
  - exists [], (mkTok T_EOF (firstn n s) p). split; [reflexivity|]. split; [now left|]. split; [constructor|].
    split; [repeat split|]. exists (skipn n s). split.
    + unfold covered. cbn [map List.concat tok_val]. rewrite app_nil_r. symmetry. apply firstn_skipn.
    + intros _. destruct (next_token_eof _ _ _ E) as (_ & [(-> & ->)|(r & -> & ->)]); [now left|now right].
Qed.

(** ** Boundaries inside a value *)
Definition ends_text (rest : bytes) : Prop := boundary (crlf ++ rest) = true.

Lemma boundary_inside w rest : boundary (crlf ++ w ++ crlf ++ rest) = begins_field (w ++ crlf).
Proof.
  unfold crlf, begins_field. cbn [app boundary]. change (beq b_cr b_cr) with true. change (beq b_lf b_lf) with true. cbn [andb].
  assert (X : forall c, beq b_dash c = beq c b_dash) by (intros c; destruct c; reflexivity).
  assert (Y : forall c, beq b_colon c = beq c b_colon) by (intros c; destruct c; reflexivity).
  assert (Z : forall c, beq b_cr c = beq c b_cr) by (intros c; destruct c; reflexivity).
  assert (V : forall c, beq b_lf c = beq c b_lf) by (intros c; destruct c; reflexivity).
  destruct w as [|c [|d [|e w]]].
  - reflexivity.
  - cbn. destruct c; reflexivity.
  - unfold crlf. cbn [app has_prefix]. rewrite !X, !Y, !Z, !V. change (beq b_cr b_lf) with false.
    destruct (beq c b_dash), (beq d b_colon), (beq d b_cr), (beq c b_colon), (is_digit d); reflexivity.
  - unfold crlf. cbn [app has_prefix]. rewrite !X, !Y, !Z, !V.
    destruct (beq c b_dash), (beq d b_colon), (beq d b_cr), (beq e b_lf), (beq c b_colon), (is_digit d); reflexivity.
Qed.
Lemma boundary_cr_only c r : c <> b_lf -> boundary (b_cr :: c :: r) = false.
Proof.
  intros H. cbn [boundary]. change (beq b_cr b_cr) with true. destruct (beq c b_lf) eqn:E; [|reflexivity].
  apply beq_true in E. contradiction.
Qed.

(** The text of a value ends where the value ends. *)
Lemma free_length_ok rest : ends_text rest -> forall v,
  ~ In b_nul v -> (forall u w, v = u ++ crlf ++ w -> begins_field (w ++ crlf) = false) ->
  free_length (v ++ crlf ++ rest) = Some (List.length v).
Proof.
  intros Hr. induction v as [|c v IH]; intros Hn Hb.
  - cbn [app List.length]. unfold crlf. cbn [app free_length]. change (beq b_cr b_nul) with false.
    unfold ends_text, crlf in Hr. cbn [app] in Hr. rewrite Hr. reflexivity.
  - cbn [app free_length]. destruct (beq c b_nul) eqn:En.
    { apply beq_true in En. subst. exfalso. apply Hn. now left. }
    rewrite IH.
    2:{ intros K. apply Hn. now right. }
    2:{ intros u w Hu. apply (Hb (c :: u) w). now rewrite Hu. }
    cbn [option_map List.length].
    destruct (beq c b_cr) eqn:Ec; [|reflexivity]. cbn [andb]. apply beq_true in Ec. subst c.
    destruct v as [|d v].
    + unfold crlf. cbn [app]. rewrite boundary_cr_only by discriminate. reflexivity.
    + destruct (beq d b_lf) eqn:Ed.
      * apply beq_true in Ed. subst d.
        change (b_cr :: (b_lf :: v) ++ crlf ++ rest) with (crlf ++ v ++ crlf ++ rest).
        rewrite boundary_inside, (Hb [] v eq_refl). reflexivity.
      * cbn [app]. rewrite boundary_cr_only; [reflexivity|]. intros ->. discriminate.
Qed.
(** It never goes further, and ends earlier or nowhere if the value is not permitted. *)
Lemma free_length_bad rest v : ends_text rest -> free_length (v ++ crlf ++ rest) = Some (List.length v) ->
  ~ In b_nul v /\ (forall u w, v = u ++ crlf ++ w -> begins_field (w ++ crlf) = false).
Proof.
  intros Hr. induction v as [|c v IH]; intros H.
  - split; [intros []|]. intros u w Hu. destruct u; discriminate.
  - cbn [app free_length List.length] in H. destruct (beq c b_nul) eqn:En; [discriminate|].
    destruct (beq c b_cr && boundary (c :: v ++ crlf ++ rest)) eqn:Eb; [discriminate|].
    destruct (free_length (v ++ crlf ++ rest)) as [n|]; [|discriminate]. cbn [option_map] in H. injection H as ->.
    destruct (IH eq_refl) as [I1 I2]. split.
    + intros [K|K]; [subst; discriminate|now apply I1].
    + intros u w Hu. destruct u as [|x u].
      * unfold crlf in Hu. cbn [app] in Hu. injection Hu as Hc Hv. subst c v.
        change (beq b_cr b_cr) with true in Eb. cbn [andb] in Eb.
        change (b_cr :: (b_lf :: w) ++ crlf ++ rest) with (crlf ++ w ++ crlf ++ rest) in Eb.
        now rewrite boundary_inside in Eb.
      * cbn [app] in Hu. injection Hu as _ Hv. now apply (I2 u).
Qed.

(** ** The first line decides *)
Lemma drop_line f l x : f b_cr = false ->
  drop_while f (l ++ b_cr :: x) = drop_while f l ++ b_cr :: x /\ take_while f (l ++ b_cr :: x) = take_while f l.
Proof.
  intros Hf. induction l as [|c l IH]; cbn [app drop_while take_while].
  - rewrite Hf. split; reflexivity.
  - destruct (f c); [|split; reflexivity]. destruct IH as [-> ->]. split; reflexivity.
Qed.
Lemma drop_all f l : drop_while f l = [] <-> forallb f l = true.
Proof.
  induction l as [|c l IH]; cbn [drop_while forallb]; [tauto|]. destruct (f c); cbn [andb]; [exact IH|].
  split; discriminate.
Qed.
Lemma take_all f l : forallb f l = true -> take_while f l = l.
Proof.
  induction l as [|c l IH]; cbn [take_while forallb]; [reflexivity|]. destruct (f c); cbn [andb]; [|discriminate].
  intros H. now rewrite (IH H).
Qed.
Lemma drop_head f l c r : drop_while f l = c :: r -> f c = false.
Proof.
  induction l as [|d l IH]; cbn [drop_while]; [discriminate|]. destruct (f d) eqn:E; [exact IH|].
  intros H. now injection H as -> _.
Qed.

Lemma value_line l x : l <> [] -> ~ In b_cr l ->
  value (l ++ b_cr :: x) =
  if forallb is_digit l then GTok (if boundary (b_cr :: x) then TS_NUMERIC else TS_CHARACTER) (List.length l) GStart
  else if is_decimal l then GTok TS_DECIMAL (List.length l) GStart
  else if forallb is_capital l then GTok TS_ALPHA (List.length l) GStart
  else if forallb cap_or_digit l then GTok TS_CHARACTER (List.length l) GStart
  else free_text (l ++ b_cr :: x).
Proof.
  intros Hne Hcr. unfold value.
  destruct (drop_line is_digit l x eq_refl) as [-> ->]. destruct (drop_line cap_or_digit l x eq_refl) as [-> ->].
  destruct (drop_line is_capital l x eq_refl) as [-> ->].
  assert (Hhead : forall f c r, drop_while f l = c :: r -> beq c b_cr = false).
  { intros f c r H. destruct (beq c b_cr) eqn:E; [|reflexivity]. exfalso. apply Hcr. apply beq_true in E. subst c.
    rewrite <- (while_split f l), H. apply in_or_app. right. now left. }
  assert (Hcd : match drop_while cap_or_digit l ++ b_cr :: x with
     | d :: _ => if beq d b_cr then GTok TS_CHARACTER (List.length (take_while cap_or_digit l)) GStart else free_text (l ++ b_cr :: x)
     | [] => GErr end =
     if forallb cap_or_digit l then GTok TS_CHARACTER (List.length l) GStart else free_text (l ++ b_cr :: x)).
  { destruct (drop_while cap_or_digit l) as [|d t] eqn:E; cbn [app].
    - assert (A : forallb cap_or_digit l = true) by now apply drop_all. rewrite A, (take_all _ _ A). reflexivity.
    - rewrite (Hhead _ _ _ E). destruct (forallb cap_or_digit l) eqn:A; [|reflexivity].
      apply drop_all in A. congruence. }
  unfold is_decimal.
  destruct (take_while is_digit l) as [|d ds] eqn:Ed.
  - (* no digit first *)
    destruct l as [|c l0]; [congruence|]. cbn [app].
    assert (Edc : is_digit c = false) by (cbn [take_while] in Ed; destruct (is_digit c); [discriminate|reflexivity]).
    cbn [forallb]. rewrite Edc. cbn [andb].
    destruct (is_capital c) eqn:Ec.
    2:{ unfold cap_or_digit at 1. rewrite Ec, Edc. cbn [andb orb]. reflexivity. }
    cbn [andb]. assert (Ecd : cap_or_digit c = true) by (unfold cap_or_digit; now rewrite Ec). rewrite Ecd. cbn [andb].
    destruct (drop_while is_capital (c :: l0)) as [|y t] eqn:Ey.
    + assert (A : forallb is_capital (c :: l0) = true) by now apply drop_all.
      cbn [app]. change (beq b_cr b_cr) with true. cbv iota. rewrite (take_all _ _ A).
      cbn [forallb] in A. rewrite Ec in A. cbn [andb] in A. now rewrite A.
    + cbn [app]. rewrite (Hhead _ _ _ Ey).
      assert (A : forallb is_capital l0 = false).
      { destruct (forallb is_capital l0) eqn:A; [|reflexivity].
        assert (A' : forallb is_capital (c :: l0) = true) by (cbn [forallb]; now rewrite Ec).
        apply drop_all in A'. congruence. }
      rewrite A. cbn [forallb] in Hcd. rewrite Ecd in Hcd. cbn [andb app] in Hcd.
      destruct (is_digit y) eqn:Eyd; cbn [andb].
      * exact Hcd.
      * (* a character that is neither *)
        assert (Hne2 : forallb cap_or_digit l0 = false).
        { destruct (forallb cap_or_digit l0) eqn:A2; [|reflexivity]. exfalso.
          assert (Hin : In y (c :: l0)).
          { rewrite <- (while_split is_capital (c :: l0)), Ey. apply in_or_app. right. now left. }
          assert (Hy : cap_or_digit y = true).
          { destruct Hin as [->|Hin]; [exact Ecd|]. rewrite forallb_forall in A2. now apply A2. }
          unfold cap_or_digit in Hy. rewrite (drop_head _ _ _ _ Ey), Eyd in Hy. discriminate. }
        rewrite Hne2 in Hcd |- *.
        destruct (drop_while cap_or_digit (c :: l0)) as [|z u] eqn:Ez.
        { assert (Z : forallb cap_or_digit (c :: l0) = true) by now apply drop_all.
          cbn [forallb] in Z. rewrite Ecd, Hne2 in Z. discriminate. }
        reflexivity.
  - destruct (drop_while is_digit l) as [|c r] eqn:Er.
    + (* only digits *)
      assert (A : forallb is_digit l = true) by now apply drop_all.
      rewrite A. cbn [app]. change (beq b_cr b_comma) with false. cbv iota.
      pose proof (take_all _ _ A) as T. rewrite Ed in T.
      destruct (boundary (b_cr :: x)); [now rewrite T|].
      assert (A2 : forallb cap_or_digit l = true).
      { revert A. apply forallb_weaken. intros y Hy. unfold cap_or_digit. now rewrite Hy, orb_true_r. }
      now rewrite Hcd, A2.
    + assert (A : forallb is_digit l = false).
      { destruct (forallb is_digit l) eqn:A; [|reflexivity]. apply drop_all in A. congruence. }
      assert (Hca : forallb is_capital l = false).
      { destruct l as [|l0 l1]; [discriminate|]. cbn [take_while] in Ed. destruct (is_digit l0) eqn:E0; [|discriminate].
        cbn [forallb]. destruct (class_facts l0) as (F & _). destruct (F E0) as (-> & _). reflexivity. }
      rewrite A, Hca. cbn [app].
      assert (Hl : l = (d :: ds) ++ c :: r) by (rewrite <- Ed, <- Er; symmetry; apply while_split).
      destruct (beq c b_comma) eqn:Ecomma; cbn [andb].
      * destruct (drop_line is_digit r x eq_refl) as [-> ->].
        destruct (drop_while is_digit r) as [|y t] eqn:Ey.
        -- assert (A3 : forallb is_digit r = true) by now apply drop_all.
           rewrite A3. cbn [app]. change (beq b_cr b_cr) with true. cbv iota. rewrite (take_all _ _ A3).
           f_equal. rewrite Hl, app_length. cbn [List.length]. lia.
        -- assert (A3 : forallb is_digit r = false).
           { destruct (forallb is_digit r) eqn:A3; [|reflexivity]. apply drop_all in A3. congruence. }
           rewrite A3. cbn [app].
           assert (Hycr : beq y b_cr = false).
           { destruct (beq y b_cr) eqn:E; [|reflexivity]. exfalso. apply Hcr. apply beq_true in E. subst y.
             rewrite Hl. apply in_or_app. right. right. rewrite <- (while_split is_digit r), Ey. apply in_or_app. right. now left. }
           rewrite Hycr.
           assert (Hno : forallb cap_or_digit l = false).
           { rewrite Hl, forallb_app. cbn [forallb]. apply beq_true in Ecomma. subst c.
             change (cap_or_digit b_comma) with false. cbn [andb]. apply andb_false_r. }
           now rewrite Hno.
      * assert (Hb : boundary (c :: r ++ b_cr :: x) = false).
        { unfold boundary. rewrite (Hhead _ _ _ Er). destruct (r ++ b_cr :: x); reflexivity. }
        rewrite Hb. exact Hcd.
Qed.
