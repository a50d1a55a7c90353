(** * C85: tags of SWIFT messages keep the last text that was read into them *)
From Verif Require Import Base BaseFacts Mt940_Model Mt940_Proofs Accept_Spec Accept_Facts Tags_Model Tags_Spec.
From Coq Require Import Lia.
Open Scope Z_scope.

Section Tags.
  Context {F : Type} (parse_float : bytes -> option F).
  Notation tag_unmarshal := (tag_unmarshal parse_float).
  Notation tag_reads := (tag_reads parse_float).
  Notation says := (says parse_float).
  Notation last_said := (last_said parse_float).

  Lemma parse_value_iff k w (v : value F) : parse_value parse_float k w = Ok v <-> stands_for parse_float k w v.
  Proof.
    destruct k; cbn [parse_value].
    - split; [intros H; injection H as <-; constructor|intros H; inversion H; reflexivity].
    - split.
      + intros H. destruct (atoi w) as [n| |] eqn:E; try discriminate H. injection H as <-. constructor. now apply atoi_iff.
      + intros H. inversion H as [|w' n Hn|]; subst. apply atoi_iff in Hn. now rewrite Hn.
    - split.
      + intros H. destruct (parse_float w) as [x|] eqn:E; [|discriminate H]. injection H as <-. now constructor.
      + intros H. inversion H as [| |w' x Hx]; subst. now rewrite Hx.
  Qed.
  Lemma parse_value_calm k w : parse_value parse_float k w <> Panic.
  Proof.
    destruct k; cbn [parse_value]; [discriminate| |destruct (parse_float w); discriminate].
    pose proof (atoi_no_panic w). destruct (atoi w); cbn [omap obind]; congruence.
  Qed.
  Lemma read_bytes_inv c : forall s a r, read_bytes c s = Some (a, r) -> s = a ++ c :: r /\ ~ In c a.
  Proof.
    induction s as [|x s IH]; intros a r H; cbn [read_bytes] in H; [discriminate H|].
    destruct (beq x c) eqn:E.
    - injection H as <- <-. apply beq_true in E. subst. split; [reflexivity|intros []].
    - destruct (read_bytes c s) as [[a' r']|] eqn:R; [|discriminate H]. injection H as <- <-. destruct (IH _ _ eq_refl) as (->&N). split; [reflexivity|].
      intros [->|K]; [rewrite beq_refl in E; discriminate E|exact (N K)].
  Qed.
  Lemma elements_iff w id rest : tag_elements w = Ok (id, rest) <-> exists name, ~ In b_colon name /\ id = b_colon :: name ++ [b_colon] /\ w = id ++ rest.
  Proof.
    split.
    - intros H. unfold tag_elements in H. destruct w as [|b r]; [discriminate H|]. destruct (beq b b_colon) eqn:E; [|discriminate H].
      destruct (read_bytes b_colon r) as [[a v]|] eqn:R; [|discriminate H]. injection H as <- <-. apply beq_true in E. subst b.
      destruct (read_bytes_inv _ _ _ _ R) as (->&N). exists a. split; [exact N|]. split; [reflexivity|]. cbn [app]. now rewrite <- app_assoc.
    - intros (name&N&->&->). cbn [app]. rewrite <- app_assoc. exact (tag_elements_eq name rest N).
  Qed.
  Lemma elements_calm w : tag_elements w <> Panic.
  Proof.
    unfold tag_elements. destruct w as [|b r]; [discriminate|]. destruct (beq b b_colon); [|discriminate]. now destruct (read_bytes b_colon r) as [[? ?]|].
  Qed.
  Lemma read_iff k w id v : (do e <- tag_elements w; do v <- parse_value parse_float k (snd e); Ok (fst e, v)) = Ok (id, v) <-> says k w id v.
  Proof.
    split.
    - intros H. destruct (tag_elements w) as [[i r]| |] eqn:E; cbn [obind fst snd] in H; try discriminate H.
      destruct (parse_value parse_float k r) as [v'| |] eqn:P; cbn [obind] in H; try discriminate H. injection H as <- <-.
      apply elements_iff in E. destruct E as (name&N&E1&E2). exists name, r. split; [exact N|]. split; [exact E1|]. split; [exact E2|]. now apply parse_value_iff.
    - intros (name&r&N&E1&E2&S). assert (E : tag_elements w = Ok (id, r)) by (apply elements_iff; now exists name).
      rewrite E. cbn [obind fst snd]. apply parse_value_iff in S. now rewrite S.
  Qed.

  (** Reading a text into a tag succeeds exactly if the text is a tag with a value of the
      kind; the tag then says what the text says.  Otherwise it is left as it was, and it
      never panics. *)
  Theorem C85_unmarshal : forall k w t,
    (forall id v, says k w id v -> tag_unmarshal k w t = (Some (id, v), Ok tt)) /\
    ((forall id v, ~ says k w id v) -> tag_unmarshal k w t = (t, Err)).
  Proof.
    intros k w t. split.
    - intros id v H. unfold Tags_Model.tag_unmarshal. apply read_iff in H. now rewrite H.
    - intros H. unfold Tags_Model.tag_unmarshal.
      destruct (do e <- tag_elements w; do v <- parse_value parse_float k (snd e); Ok (fst e, v)) as [[id v]| |] eqn:E; [|reflexivity|].
      + apply read_iff in E. now apply H in E.
      + exfalso. pose proof (elements_calm w) as N1. destruct (tag_elements w) as [e| |]; cbn [obind] in E; try congruence.
        pose proof (parse_value_calm k (snd e)) as N2. destruct (parse_value parse_float k (snd e)); cbn [obind] in E; congruence.
  Qed.
  (** A text says one thing at most. *)
  Theorem C85_once : forall k w id v id' v', says k w id v -> says k w id' v' -> id = id' /\ v = v'.
  Proof. intros k w id v id' v' H H'. apply read_iff in H, H'. rewrite H in H'. now injection H' as <- <-. Qed.
  Lemma says_dec k w : (exists id v, says k w id v) \/ (forall id v, ~ says k w id v).
  Proof.
    destruct (do e <- tag_elements w; do v <- parse_value parse_float k (snd e); Ok (fst e, v)) as [[id v]| |] eqn:E;
      [left; exists id, v; now apply read_iff|right; intros id v H; apply read_iff in H; congruence..].
  Qed.

  Lemma reads_silent k : forall ws t, Forall (fun w => forall id v, ~ says k w id v) ws -> fst (tag_reads k ws t) = t.
  Proof.
    induction ws as [|w ws IH]; intros t H; cbn [Tags_Model.tag_reads]; [reflexivity|]. cbv zeta. cbn [fst]. inversion H as [|? ? H1 H2]; subst.
    rewrite (proj2 (C85_unmarshal k w t) H1). cbn [fst]. now apply IH.
  Qed.
  Lemma reads_app k : forall ws ws' t, fst (tag_reads k (ws ++ ws') t) = fst (tag_reads k ws' (fst (tag_reads k ws t))).
  Proof. induction ws as [|w ws IH]; intros ws' t; cbn [app Tags_Model.tag_reads]; [reflexivity|]. cbv zeta. cbn [fst]. apply IH. Qed.
  Lemma val_of k w id v : says k w id v -> tag_val k (Some (id, v)) = Ok v.
  Proof. intros (name&r&_&_&_&S). inversion S; subst; reflexivity. Qed.
  (** After reading any texts into a new tag, ID, Value and Val give what the last text said
      that could be read. *)
  Theorem C85_last : forall k ws id v, last_said k ws id v ->
    let t := fst (tag_reads k ws None) in tag_id t = Ok id /\ tag_value t = Ok v /\ tag_val k t = Ok v.
  Proof.
    intros k ws id v H. inversion H as [before w after id' v' Hs Ha E]; subst. cbv zeta. rewrite reads_app. cbn [Tags_Model.tag_reads]. cbv zeta. cbn [fst].
    rewrite (proj1 (C85_unmarshal k w _) id v Hs). cbn [fst]. rewrite reads_silent by exact Ha. split; [reflexivity|]. split; [reflexivity|]. exact (val_of k w id v Hs).
  Qed.
  (** If none could, they panic: exactly then. *)
  Theorem C85_unread_panics : forall k ws,
    let t := fst (tag_reads k ws None) in
    (tag_id t = Panic <-> Forall (fun w => forall id v, ~ says k w id v) ws) /\
    (tag_value t = Panic <-> Forall (fun w => forall id v, ~ says k w id v) ws) /\
    (tag_val k t = Panic <-> Forall (fun w => forall id v, ~ says k w id v) ws).
  Proof.
    intros k ws. cbv zeta.
    assert (D : Forall (fun w => forall id v, ~ says k w id v) ws \/ exists id v, last_said k ws id v).
    { induction ws as [|w ws IH] using rev_ind; [left; constructor|]. destruct (says_dec k w) as [(id&v&S)|N].
      - right. exists id, v. apply (LastSaid parse_float k ws w [] id v); [exact S|constructor].
      - destruct IH as [IH|(id&v&H)].
        + left. apply Forall_app. split; [exact IH|]. constructor; [exact N|constructor].
        + right. exists id, v. inversion H as [b w0 a id' v' Hs Ha E]; subst. rewrite <- app_assoc. cbn [app]. apply LastSaid; [exact Hs|].
          apply Forall_app. split; [exact Ha|]. constructor; [exact N|constructor]. }
    destruct D as [D|(id&v&H)].
    - rewrite (reads_silent k ws None D). cbn. tauto.
    - destruct (C85_last k ws id v H) as (E1&E2&E3). cbv zeta in E1, E2, E3. rewrite E1, E2, E3.
      inversion H as [b w0 a id' v' Hs Ha E]; subst.
      assert (K : ~ Forall (fun w => forall id v, ~ says k w id v) (b ++ w0 :: a)).
      { intros K. rewrite Forall_forall in K. apply (K w0 (in_elt w0 b a) id v Hs). }
      split; [|split]; (split; [discriminate|intros K'; destruct (K K')]).
  Qed.

  (** Numbers survive: any number that fits into 64 bits, with any name. *)
  Theorem C85_number : forall name n t, ~ In b_colon name -> - 2 ^ 63 <= n < 2 ^ 63 ->
    tag_unmarshal Numeric (b_colon :: name ++ b_colon :: itoa n) t = (Some (b_colon :: name ++ [b_colon], VNumber n), Ok tt).
  Proof.
    intros name n t N Hn. apply C85_unmarshal. exists name, (itoa n). split; [exact N|]. split; [reflexivity|]. split; [cbn [app]; now rewrite <- app_assoc|].
    constructor. apply atoi_iff, atoi_itoa. now apply in_int64_iff.
  Qed.
  (** But amounts as SWIFT writes them, with a comma, are refused by FloatTag, since Go reads
      no float with a comma. *)
  Theorem C85_amount_refuted : forall w rest name t, (forall s, In b_comma s -> parse_float s = None) ->
    ~ In b_colon name -> In b_comma rest -> w = b_colon :: name ++ b_colon :: rest -> tag_unmarshal Float w t = (t, Err).
  Proof.
    intros w rest name t Hp N Hc ->. apply C85_unmarshal. intros id v S. apply read_iff in S. rewrite tag_elements_eq in S by exact N. cbn [obind snd parse_value] in S.
    rewrite Hp in S by exact Hc. discriminate S.
  Qed.
End Tags.

(** Cases: two texts and one that cannot be read; a number above 64 bits; an amount. *)
Example C85_case :
  let pf := fun s : bytes => if existsb (beq b_comma) s then None else Some tt in
  last_said pf Numeric [B ":28:17"; B ":28C:00005"; B ":28C:5/1"] (B ":28C:") (VNumber 5) /\
  tag_reads pf Numeric [B ":28:17"; B ":28C:00005"; B ":28C:5/1"] None = (Some (B ":28C:", VNumber 5), [Ok tt; Ok tt; Err]) /\
  snd (tag_unmarshal pf Numeric (B ":20:9223372036854775808") None) = Err /\
  (forall s, In b_comma s -> pf s = None) /\
  snd (tag_unmarshal pf Float (B ":64:1,5") None) = Err /\ snd (tag_unmarshal pf Float (B ":64:1.5") None) = Ok tt.
Proof.
  intros pf. split; [|split; [reflexivity|split; [reflexivity|split; [|split; reflexivity]]]].
  - apply (LastSaid pf Numeric [B ":28:17"] (B ":28C:00005") [B ":28C:5/1"]).
    + apply read_iff. reflexivity.
    + constructor; [|constructor]. intros id v S. apply read_iff in S. discriminate S.
  - intros s H. unfold pf. replace (existsb (beq b_comma) s) with true; [reflexivity|]. symmetry. apply existsb_exists. exists b_comma. split; [exact H|apply beq_refl].
Qed.

Print Assumptions C85_unmarshal.
Print Assumptions C85_once.
Print Assumptions C85_last.
Print Assumptions C85_unread_panics.
Print Assumptions C85_number.
Print Assumptions C85_amount_refuted.
