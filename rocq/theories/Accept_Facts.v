(** * Facts about which segments can be read: outcomes, basic values, groups *)
From Verif Require Import Base BaseFacts Lexer_Model Lexer_Spec Lexer_Proofs Lexer_Facts
  Codec_Model Codec_Spec Codec_Proofs Codec_Props Wire_Model Wire_Spec Wire_Proofs Wire_Facts Wire_Facts2 Wire_Facts3
  Message_Model Message_Spec Message_Proofs Message_Facts Message_Facts2 Message_Facts3
  Dialog_Model Seg_Model Seg_Spec Seg_Facts Seg_Facts2 Seg_Facts3 Seg_Facts4 Seg_Facts5 Accept_Spec.
From Coq Require Import Lia ZifyBool ZifyNat ZifyN.
Open Scope Z_scope.
Ltac Zify.zify_post_hook ::= Z.div_mod_to_equations.

(** ** Outcomes *)
Definition judged {A} (o : outcome A) (P C : Prop) : Prop := ((exists x, o = Ok x) <-> P) /\ (o = Panic <-> C).
Lemma judged_iff {A} (o : outcome A) P C P' C' : judged o P C -> (P <-> P') -> (C <-> C') -> judged o P' C'.
Proof. unfold judged. tauto. Qed.
Lemma judged_ok {A} (x : A) : judged (Ok x) True False.
Proof. split; split; try discriminate; try tauto. now exists x. Qed.
Lemma judged_err {A} : judged (@Err A) False False.
Proof. split; split; try discriminate; try tauto. intros [x H]. discriminate. Qed.
Lemma judged_panic {A} : judged (@Panic A) False True.
Proof. split; split; try discriminate; try tauto. intros [x H]. discriminate. Qed.
Lemma judged_bind {A E} (o : outcome A) (k : A -> outcome E) P C P' C' :
  judged o P C -> (forall x, o = Ok x -> judged (k x) P' C') -> judged (do x <- o; k x) (P /\ P') (C \/ (P /\ C')).
Proof.
  intros [H1 H2] H. destruct o as [x| |]; cbn [obind].
  - assert (P) as HP by (apply H1; now exists x). assert (~ C) as HC by (intros K; apply H2 in K; discriminate).
    specialize (H x eq_refl). destruct H as [H3 H4]. unfold judged. tauto.
  - assert (~ P) as HP by (intros K; apply H1 in K; destruct K; discriminate). assert (~ C) as HC by (intros K; apply H2 in K; discriminate).
    eapply judged_iff; [apply judged_err| |]; tauto.
  - assert (~ P) as HP by (intros K; apply H1 in K; destruct K; discriminate). assert C as HC by tauto.
    eapply judged_iff; [apply judged_panic| |]; tauto.
Qed.
Lemma judged_done {A E} (o : outcome A) (o' : outcome E) P C : judged o P C -> omap (fun _ => tt) o = omap (fun _ => tt) o' -> judged o' P C.
Proof.
  intros [H1 H2] H. destruct o as [x| |], o' as [y| |]; cbn in H; try discriminate; clear H.
  - eapply judged_iff; [apply judged_ok| |]; [|split; [tauto|intros K; apply H2 in K; discriminate]].
    split; [intros _; apply H1; now exists x|tauto].
  - eapply judged_iff; [apply judged_err| |]; (split; [tauto|]); intros K; [apply H1 in K; destruct K|apply H2 in K]; discriminate.
  - eapply judged_iff; [apply judged_panic| |]; [split; [tauto|]; intros K; apply H1 in K; destruct K; discriminate|tauto].
Qed.
Lemma judged_value {A} (o : outcome A) (P : A -> Prop) : (forall x, o = Ok x <-> P x) -> o <> Panic -> judged o (exists x, P x) False.
Proof.
  intros H1 H2. split; [|tauto]. split; intros [x Hx]; exists x; now apply H1.
Qed.
Lemma nonempty_nth_cases : forall k (es : list bytes),
  (nth k es [] = [] /\ nonempty_nth k es = None) \/ (nth k es [] <> [] /\ nonempty_nth k es = Some (nth k es [])).
Proof.
  unfold nonempty_nth. induction k as [|k IH]; intros [|[|x w] es]; cbn [nth nth_error]; try (left; split; reflexivity); try apply IH.
  right. split; [discriminate|reflexivity].
Qed.
Lemma judged_field {A} k (f : bytes -> outcome A) (es : list bytes) P C :
  (nth k es [] <> [] -> judged (f (nth k es [])) P C) ->
  judged (field k f es) (nth k es [] <> [] -> P) (nth k es [] <> [] /\ C).
Proof.
  unfold field. intros H. destruct (nonempty_nth_cases k es) as [[E1 E2]|[E1 E2]]; rewrite E2; cbn [opt_parse].
  - eapply judged_iff; [apply judged_ok| |]; tauto.
  - specialize (H E1). eapply judged_iff; [eapply judged_bind; [exact H|intros; apply judged_ok]| |]; tauto.
Qed.

(** ** Basic values *)
Lemma digits_cons_high c l : is_digit c = false -> forallb is_digit (c :: l) = false.
Proof. intros H. cbn [forallb]. now rewrite H. Qed.
Lemma to_utf8_cons c l : to_utf8 (c :: l) = utf8_of_latin1 c ++ to_utf8 l.
Proof. reflexivity. Qed.
Lemma to_utf8_digits l : forallb is_digit (to_utf8 l) = forallb is_digit l.
Proof.
  induction l as [|c l IH]; [reflexivity|]. rewrite to_utf8_cons. unfold utf8_of_latin1. destruct (zb c <? 128) eqn:E.
  - cbn [app forallb]. now rewrite IH.
  - pose proof (zb_range c). assert (is_digit c = false) as Hc by (unfold is_digit; lia).
    rewrite (digits_cons_high c) by exact Hc. cbn [app]. apply digits_cons_high.
    unfold is_digit. rewrite zb_byte_of_Z by lia. lia.
Qed.
Lemma digits_ascii l : forallb is_digit l = true -> ascii l = true.
Proof.
  intros H. unfold ascii. apply forallb_forall. intros c Hc. rewrite forallb_forall in H. specialize (H c Hc).
  unfold is_digit in H. lia.
Qed.
Lemma atoi_digits_utf8 l : atoi_digits (to_utf8 l) = atoi_digits l.
Proof.
  unfold atoi_digits. destruct l as [|c l]; [reflexivity|].
  destruct (to_utf8 (c :: l)) as [|x m] eqn:E; [apply to_utf8_nil in E; discriminate|].
  rewrite <- E, to_utf8_digits. destruct (forallb is_digit (c :: l)) eqn:D; [|reflexivity].
  rewrite to_utf8_ascii by now apply digits_ascii. reflexivity.
Qed.
Lemma atoi_utf8 w : atoi (to_utf8 w) = atoi w.
Proof.
  destruct w as [|c w]; [reflexivity|]. destruct (zb c <? 128) eqn:E.
  - assert (K : to_utf8 (c :: w) = c :: to_utf8 w) by (rewrite to_utf8_cons; unfold utf8_of_latin1; now rewrite E).
    rewrite K. unfold atoi. rewrite atoi_digits_utf8. rewrite <- K, atoi_digits_utf8. reflexivity.
  - pose proof (zb_range c). pose proof (to_utf8_digits (c :: w)) as D. rewrite to_utf8_cons in D |- *. unfold utf8_of_latin1 in *. rewrite E in *. cbn [app] in *.
    set (x := byte_of_Z (192 + zb c / 64)) in *. assert (Hx : zb x = 192 + zb c / 64) by (apply zb_byte_of_Z; lia).
    assert (forall y, zb y >= 128 -> forall r, atoi (y :: r) = Err) as Hgo.
    { intros y Hy r. unfold atoi. destruct (beq_spec y b_minus) as [->|_]; [cbv in Hy; congruence|].
      destruct (beq_spec y b_plus) as [->|_]; [cbv in Hy; congruence|].
      unfold atoi_digits. rewrite digits_cons_high; [reflexivity|]. unfold is_digit. lia. }
    rewrite !Hgo by lia. reflexivity.
Qed.
Lemma in_int64_iff z : in_int64 z = true <-> - 2 ^ 63 <= z < 2 ^ 63.
Proof. unfold in_int64, int64_min, int64_max. lia. Qed.
Lemma atoi_digits_iff l n : atoi_digits l = Some n <-> l <> [] /\ forallb is_digit l = true /\ n = dec_val l.
Proof.
  unfold atoi_digits. destruct l as [|c l]; [split; [discriminate|tauto]|].
  destruct (forallb is_digit (c :: l)).
  - split; [intros H; injection H as <-; repeat split; discriminate|]. intros (_&_&->). reflexivity.
  - split; [discriminate|]. intros (_&K&_). discriminate.
Qed.
Lemma atoi_iff w z : atoi w = Ok z <-> integer_of w z.
Proof.
  unfold integer_of. destruct w as [|c w].
  { split; [discriminate|]. intros (ds&H1&_&_&[[[H|H] _]|[H _]]); congruence. }
  unfold atoi.
  assert (Hp : forall (neg : bool) ds z, match atoi_digits ds with None => Err | Some n =>
     let z := (if neg then - Z.of_N n else Z.of_N n) in if in_int64 z then Ok z else Err end = Ok z <->
     ds <> [] /\ forallb is_digit ds = true /\ - 2 ^ 63 <= z < 2 ^ 63 /\ z = if neg then - Z.of_N (dec_val ds) else Z.of_N (dec_val ds)).
  { clear. intros neg ds z. destruct (atoi_digits ds) as [n|] eqn:E.
    - apply atoi_digits_iff in E. destruct E as (E1&E2&E3). subst n. cbv zeta. pose proof (in_int64_iff (if neg then - Z.of_N (dec_val ds) else Z.of_N (dec_val ds))) as Hi.
      destruct (in_int64 (if neg then - Z.of_N (dec_val ds) else Z.of_N (dec_val ds))) eqn:I.
      + split; [intros K; injection K as <-; split; [exact E1|]; split; [exact E2|]; split; [now apply Hi|reflexivity]|]. intros (_&_&_&->). reflexivity.
      + split; [discriminate|]. intros (_&_&K1&->). apply Hi in K1. congruence.
    - split; [discriminate|]. intros (K1&K2&_). assert (atoi_digits ds = Some (dec_val ds)) by now apply atoi_digits_iff. congruence. }
  assert (Hd : forall ds, c :: w = ds -> forallb is_digit ds = true -> c <> b_minus /\ c <> b_plus).
  { intros ds <- K. cbn [forallb] in K. apply andb_true_iff in K. destruct K as [K _].
    split; intros ->; cbv in K; discriminate. }
  destruct (beq_spec c b_minus) as [->|Hm].
  - rewrite (Hp true w z). split.
    + intros (H1&H2&H3&H4). exists w. split; [exact H1|]. split; [exact H2|]. split; [exact H3|]. right. split; [reflexivity|exact H4].
    + intros (ds&H1&H2&H3&[[[H|H] _]|[H H4]]).
      * exfalso. destruct (Hd ds H H2). congruence.
      * exfalso. injection H as K _. cbv in K. discriminate.
      * assert (w = ds) by congruence. subst ds. tauto.
  - destruct (beq_spec c b_plus) as [->|Hq].
    + rewrite (Hp false w z). split.
      * intros (H1&H2&H3&H4). exists w. split; [exact H1|]. split; [exact H2|]. split; [exact H3|]. left. split; [right; reflexivity|exact H4].
      * intros (ds&H1&H2&H3&[[[H|H] H4]|[H H4]]).
        -- exfalso. destruct (Hd ds H H2). congruence.
        -- assert (w = ds) by congruence. subst ds. tauto.
        -- exfalso. injection H as K _. cbv in K. discriminate.
    + rewrite (Hp false (c :: w) z). split.
      * intros (H1&H2&H3&H4). exists (c :: w). split; [exact H1|]. split; [exact H2|]. split; [exact H3|]. left. split; [left; reflexivity|exact H4].
      * intros (ds&H1&H2&H3&[[[H|H] H4]|[H H4]]).
        -- subst ds. tauto.
        -- exfalso. apply Hq. unfold b_plus. congruence.
        -- exfalso. apply Hm. unfold b_minus. congruence.
Qed.
Lemma atoi_no_panic w : atoi w <> Panic.
Proof.
  unfold atoi. destruct w as [|c w]; [discriminate|].
  destruct (beq c b_minus); [|destruct (beq c b_plus)];
    (destruct (atoi_digits _); cbv zeta; [destruct (in_int64 _)|]; discriminate).
Qed.
Lemma judged_int_of w z : unmarshal_int w = Ok z <-> integer_of w z.
Proof. unfold unmarshal_int. rewrite atoi_utf8. apply atoi_iff. Qed.
Lemma judged_int w : judged (unmarshal_int w) (integer w) False.
Proof. apply judged_value; [intros z; apply judged_int_of|]. apply atoi_no_panic. Qed.
Lemma judged_date w : judged (unmarshal_date w) (day w) False.
Proof.
  apply judged_value.
  - intros d. split; [apply C12_date_accepts_only_renderings|]. intros [H ->].
    destruct (C12_date_roundtrip d H) as [E1 E2]. exact E2.
  - unfold unmarshal_date, parse_date.
    repeat match goal with |- context [match ?x with _ => _ end] => destruct x end; discriminate.
Qed.
Lemma judged_time w : judged (unmarshal_time w) (clock w) False.
Proof.
  eapply judged_iff; [apply (judged_value _ (fun t => real_time t /\ exists f, w = hhmmss t ++ f /\ fraction f))| |tauto].
  - intros t. apply C12_time_accepts_renderings_and_fractions.
  - unfold unmarshal_time, parse_time.
    repeat match goal with |- context [match ?x with _ => _ end] => destruct x end; discriminate.
  - unfold clock. split; [intros (t&H1&f&H2); exists t, f; tauto|intros (t&f&H1&H2); exists t; split; [exact H1|exists f; exact H2]].
Qed.
Lemma utf8_flag w (s : bytes) : ascii s = true -> to_utf8 w = s <-> w = s.
Proof. intros H. split; intros K; [apply to_utf8_inj; rewrite (to_utf8_ascii s H); exact K|subst; now apply to_utf8_ascii]. Qed.
Lemma judged_bool w : judged (unmarshal_bool w) (flag w) False.
Proof.
  unfold unmarshal_bool, flag. destruct (bytes_eqb_spec (to_utf8 w) (B "J")) as [E|E].
  - apply (proj1 (utf8_flag w (B "J") eq_refl)) in E. eapply judged_iff; [apply judged_ok| |]; tauto.
  - rewrite (utf8_flag w (B "J") eq_refl) in E. destruct (bytes_eqb_spec (to_utf8 w) (B "N")) as [D|D].
    + apply (proj1 (utf8_flag w (B "N") eq_refl)) in D. eapply judged_iff; [apply judged_ok| |]; tauto.
    + rewrite (utf8_flag w (B "N") eq_refl) in D. eapply judged_iff; [apply judged_err| |]; tauto.
Qed.
Lemma judged_binary w : judged (unmarshal_binary w) (binary w) (fatal_binary w).
Proof.
  split.
  - split.
    + intros [x H]. apply unmarshal_binary_iff in H. destruct H as (size&rest&n&H1&H2&H3&H4&H5&_).
      exists size, rest, n. apply atoi_iff in H3. tauto.
    + intros (size&rest&n&H1&H2&H3&H4&H5). eexists. apply unmarshal_binary_iff. exists size, rest, n.
      apply atoi_iff in H3. split; [exact H1|]. tauto.
  - rewrite unmarshal_binary_panic_iff. split; intros (size&rest&n&H1&H2&H3&H4); exists size, rest, n; apply atoi_iff in H3; tauto.
Qed.
Lemma utf8_app a b : utf8 (a ++ b) = utf8 a ++ utf8 b.
Proof. rewrite !utf8_eq. apply to_utf8_app. Qed.
Lemma in_to_utf8 c l : zb c < 128 -> In c (to_utf8 l) -> In c l.
Proof.
  intros Hc. induction l as [|x l IH]; [intros []|]. rewrite to_utf8_cons. intros H. apply in_app_or in H.
  destruct H as [H|H]; [|right; now apply IH]. left. unfold utf8_of_latin1 in H. pose proof (zb_range x).
  destruct (zb x <? 128) eqn:E.
  - destruct H as [H|[]]. exact H.
  - exfalso. destruct H as [H|[H|[]]]; subst c; rewrite zb_byte_of_Z in Hc by lia; lia.
Qed.
Lemma first_occurrence (c : byte) : forall w, In c w -> exists a b, w = a ++ c :: b /\ ~ In c a.
Proof.
  induction w as [|x w IH]; [intros []|]. intros H. destruct (beq_spec x c) as [->|Hx].
  - exists [], w. split; [reflexivity|intros []].
  - destruct H as [H|H]; [congruence|]. destruct (IH H) as (a&b&->&K). exists (x :: a), b. split; [reflexivity|].
    intros [E|E]; [congruence|tauto].
Qed.
Lemma judged_money {F} (parse_float : bytes -> option F) w : judged (unmarshal_value parse_float w) (money parse_float w) False.
Proof.
  unfold unmarshal_value, money. destruct (in_dec byte_eq_dec ","%byte w) as [Hin|Hn].
  - destruct (first_occurrence _ _ Hin) as (a&b&Hw&Ha).
    assert (K : replace1 b_comma "."%byte (to_utf8 w) = utf8 (a ++ "."%byte :: b)).
    { rewrite Hw, utf8_eq, !to_utf8_app. change (to_utf8 (","%byte :: b)) with (","%byte :: to_utf8 b).
      change (to_utf8 ("."%byte :: b)) with ("."%byte :: to_utf8 b).
      apply replace1_at. intros G. apply Ha. apply in_to_utf8; [reflexivity|exact G]. }
    rewrite K. destruct (parse_float (utf8 (a ++ "."%byte :: b))) as [x|] eqn:E.
    + eapply judged_iff; [apply judged_ok| |tauto]. split; [intros _|tauto]. exists x. left. exists a, b. tauto.
    + eapply judged_iff; [apply judged_err| |tauto]. split; [tauto|]. intros (x&[(a'&b'&H1&H2&H3)|[H _]]); [|tauto].
      assert (a = a' /\ b = b') as [-> ->].
      { clear -Hw Ha H1 H2. rewrite Hw in H2. clear Hw. revert a' H1 H2. induction a as [|y a IH]; intros [|y' a'] H1 H2; cbn [app] in H2.
        - split; congruence.
        - exfalso. apply H1. left. congruence.
        - exfalso. apply Ha. left. congruence.
        - assert (y = y') by congruence. assert (a ++ ","%byte :: b = a' ++ ","%byte :: b') as G by congruence.
          destruct (IH ltac:(intros K; apply Ha; now right) a' ltac:(intros K; apply H1; now right) G). split; congruence. }
      congruence.
  - assert (K : replace1 b_comma "."%byte (to_utf8 w) = utf8 w).
    { rewrite utf8_eq. apply replace1_none. intros G. apply Hn. apply in_to_utf8; [reflexivity|exact G]. }
    rewrite K. destruct (parse_float (utf8 w)) as [x|] eqn:E.
    + eapply judged_iff; [apply judged_ok| |tauto]. split; [intros _|tauto]. exists x. right. tauto.
    + eapply judged_iff; [apply judged_err| |tauto]. split; [tauto|]. intros (x&[(a'&b'&H1&H2&H3)|[_ H]]); [|congruence].
      apply Hn. rewrite H2. apply in_or_app. right. now left.
Qed.
