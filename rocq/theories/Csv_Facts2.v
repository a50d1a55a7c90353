(** * Facts about the reader of CSV files: lines, fields and records *)
From Coq Require Import Lia.
From Verif Require Import Base BaseFacts Bank_Model Csv_Model Csv_Spec Csv_Facts.
Open Scope nat_scope.

(** ** Lines *)
(** Line feeds are at the end of lines, and all lines but the last one have one. *)
Fixpoint tidy (ls : list bytes) : Prop :=
  match ls with
  | [] => True
  | l :: r => (exists m, l = m ++ [b_lf] /\ ~ In b_lf m) /\ tidy r \/ ~ In b_lf l /\ r = []
  end.

Lemma raw_lines_head d r : exists l ls, raw_lines (d :: r) = (d :: l) :: ls.
Proof.
  cbn [raw_lines]. destruct (beq d b_lf); [eauto|]. destruct (raw_lines r) as [|l ls]; eauto.
Qed.
Lemma raw_lines_tidy s : tidy (raw_lines s).
Proof.
  induction s as [|c r IH]; [exact I|]. cbn [raw_lines]. destruct (beq c b_lf) eqn:E.
  - apply beq_true in E as ->. left. split; [|exact IH]. exists []. split; [reflexivity|intros []].
  - apply beq_false in E. destruct (raw_lines r) as [|l ls].
    + right. split; [|reflexivity]. intros [K|[]]. now apply E.
    + cbn [tidy] in *. destruct IH as [[(m&->&N) T]|[N T]].
      * left. split; [|exact T]. exists (c :: m). split; [reflexivity|]. intros [K|K]; [now apply E|contradiction].
      * right. split; [|exact T]. intros [K|K]; [now apply E|contradiction].
Qed.
Lemma normal_lf m : ~ In b_lf m -> exists m', normal_line (m ++ [b_lf]) = m' ++ [b_lf] /\ ~ In b_lf m'.
Proof.
  induction m as [|c m IH]; intro N.
  - exists []. split; [reflexivity|intros []].
  - destruct IH as (m'&E&N'); [intro K; apply N; now right|]. destruct m as [|d m].
    + cbn [app normal_line]. destruct (beq c b_cr && beq b_lf b_lf).
      * exists []. split; [reflexivity|intros []].
      * exists [c]. split; [reflexivity|]. intros [K|[]]. apply N. now left.
    + change ((c :: d :: m) ++ [b_lf]) with (c :: d :: (m ++ [b_lf])). cbn [normal_line].
      replace (beq c b_cr && beq d b_lf) with false.
      * exists (c :: m'). split; [|intros [K|K]; [apply N; now left|contradiction]].
        change (d :: (m ++ [b_lf])) with ((d :: m) ++ [b_lf]). cbn [app] in *. now rewrite <- E.
      * symmetry. apply andb_false_iff. right. apply beq_false. intro K. apply N. right. now left.
Qed.
Lemma normal_no_lf l : ~ In b_lf l -> ~ In b_lf (normal_line l).
Proof.
  induction l as [|c l IH]; intro N; [intros []|]. destruct l as [|d l].
  - cbn. destruct (beq c b_cr); [intros []|exact N].
  - cbn [normal_line]. destruct (beq c b_cr && beq d b_lf) eqn:E.
    + apply andb_true_iff in E as [_ E]. apply beq_true in E. exfalso. apply N. right. now left.
    + intros [K|K]; [apply N; now left|]. revert K. apply IH. intro K. apply N. now right.
Qed.
Lemma read_lines_tidy s : tidy (read_lines s).
Proof.
  unfold read_lines. pose proof (raw_lines_tidy s) as T. revert T. generalize (raw_lines s). intro ls.
  induction ls as [|l r IH]; [auto|]. cbn [tidy map]. intros [[(m&->&N) T]|[N ->]].
  - left. split; [|now apply IH]. now apply normal_lf.
  - right. split; [now apply normal_no_lf|reflexivity].
Qed.
Lemma read_lines_text s : List.concat (read_lines s) = unix s.
Proof.
  unfold read_lines. induction s as [|c r IH]; [reflexivity|].
  destruct r as [|d r].
  - cbn [raw_lines unix]. change x0d with b_cr. change x0a with b_lf. destruct (beq c b_lf) eqn:L.
    + apply beq_true in L as ->. reflexivity.
    + cbn [map List.concat normal_line]. destruct (beq c b_cr); reflexivity.
  - pose proof (raw_lines_head d r) as (l&ls&E). rewrite E in IH.
    change (unix (c :: d :: r)) with (if beq c x0d then if beq d x0a then unix (d :: r) else c :: unix (d :: r) else c :: unix (d :: r)).
    cbn [raw_lines] in E |- *. destruct (beq c b_lf) eqn:L.
    + apply beq_true in L as ->. rewrite E. cbn [map List.concat] in IH |- *. rewrite IH. reflexivity.
    + rewrite E. cbn [map List.concat] in IH |- *. rewrite <- IH. cbn [normal_line]. change x0d with b_cr. change x0a with b_lf.
      destruct (beq c b_cr) eqn:C; cbn [andb]; [|reflexivity]. destruct (beq d b_lf) eqn:D; [|reflexivity].
      injection E as <- <-. apply beq_true in D as ->. reflexivity.
Qed.

(** A position in the text: the rest of the line and the lines after it. *)
Lemma tidy_nil rest : tidy ([] :: rest) -> rest = [].
Proof. intros [[(m&E&_) _]|[_ E]]; [destruct m; discriminate E|exact E]. Qed.
Lemma tidy_suffix a l rest : ~ In b_lf a -> tidy ((a ++ l) :: rest) -> tidy (l :: rest).
Proof.
  intros N [[(m&E&M) T]|[M T]].
  - destruct (app_cases _ _ _ _ E) as [(e&E1&E2)|(e&E0&E1&E2)].
    + destruct e as [|e0 e].
      * cbn in E2. left. split; [|exact T]. exists []. split; [now symmetry|intros []].
      * exfalso. apply N. rewrite E1. destruct e; [|destruct e; discriminate E2]. injection E2 as <- ->. apply in_or_app. right. now left.
    + left. split; [|exact T]. exists e. split; [exact E2|]. intro K. apply M. rewrite E1. apply in_or_app. now right.
  - right. split; [|exact T]. intro K. apply M. apply in_or_app. now right.
Qed.
Lemma tidy_tail l rest : tidy (l :: rest) -> tidy rest.
Proof. intros [[_ T]|[_ ->]]; [exact T|exact I]. Qed.
(** Text without a line feed is in the line. *)
Lemma in_line a t line rest : tidy (line :: rest) -> ~ In b_lf a -> line ++ List.concat rest = a ++ t ->
  exists line', line = a ++ line' /\ line' ++ List.concat rest = t /\ tidy (line' :: rest).
Proof.
  revert line. induction a as [|c a IH]; intros line T N E.
  - exists line. repeat split; auto.
  - destruct line as [|d line].
    + rewrite (tidy_nil _ T) in E. discriminate E.
    + injection E as -> E. destruct (IH line) as (l'&->&E'&T').
      * apply (tidy_suffix [c]); [|exact T]. intros [K|[]]. apply N. now left.
      * intro K. apply N. now right.
      * exact E.
      * exists l'. repeat split; auto.
Qed.
Lemma line_lf rest t line : tidy (line :: rest) -> line ++ List.concat rest = b_lf :: t -> line = [b_lf] /\ List.concat rest = t.
Proof.
  intros T E. destruct line as [|c line]; [rewrite (tidy_nil _ T) in E; discriminate E|]. injection E as -> E.
  destruct T as [[(m&M&N) T]|[N _]]; [|exfalso; apply N; now left].
  destruct m as [|d m]; [injection M as ->; auto|]. injection M as <- _. exfalso. apply N. now left.
Qed.
Lemma lf_at_end a b rest : tidy ((a ++ b) :: rest) -> b <> [] -> ~ In b_lf a.
Proof.
  intros [[(m&E&N) _]|[N _]] NE K.
  - destruct (app_cases _ _ _ _ E) as [(e&E1&E2)|(e&_&E1&_)].
    + destruct b as [|b0 b]; [contradiction|]. destruct e as [|e0 e]; [|destruct e; discriminate E2].
      rewrite app_nil_r in E1. subst a. contradiction.
    + apply N. rewrite E1. apply in_or_app. now left.
  - apply N. apply in_or_app. now left.
Qed.

(** ** Cutting *)
Lemma cut_some c l a b : cut c l = Some (a, b) <-> l = a ++ c :: b /\ ~ In c a.
Proof.
  revert a. induction l as [|x l IH]; intros a; cbn [cut].
  - split; [discriminate|]. intros [E _]. destruct a; discriminate E.
  - destruct (beq x c) eqn:X.
    + apply beq_true in X as ->. split.
      * intro H. injection H as <- <-. split; [reflexivity|intros []].
      * intros [E N]. destruct a as [|y a]; [now injection E as ->|]. injection E as <- _. exfalso. apply N. now left.
    + apply beq_false in X. destruct (cut c l) as [[a' b']|].
      * split.
        -- intro H. injection H as <- <-. destruct (proj1 (IH a') eq_refl) as [-> N]. split; [reflexivity|].
           intros [K|K]; [now apply X|contradiction].
        -- intros [E N]. destruct a as [|y a]; [injection E as -> _; now elim X|]. injection E as <- E.
           assert (Q : Some (a', b') = Some (a, b)) by (apply IH; split; [exact E|intro K; apply N; now right]). now injection Q as -> ->.
      * split; [discriminate|]. intros [E N]. destruct a as [|y a]; [injection E as -> _; now elim X|]. injection E as <- E.
        assert (Q : None = Some (a, b)) by (apply IH; split; [exact E|intro K; apply N; now right]). discriminate Q.
Qed.
Lemma cut_none c l : cut c l = None <-> ~ In c l.
Proof.
  induction l as [|x l IH]; cbn [cut In]; [tauto|]. destruct (beq x c) eqn:X.
  - apply beq_true in X as ->. split; [discriminate|]. intro N. exfalso. apply N. now left.
  - apply beq_false in X. destruct (cut c l) as [[a b]|].
    + split; [discriminate|]. intro N. assert (Q : Some (a, b) = None) by (apply IH; tauto). discriminate Q.
    + split; [|reflexivity]. intros _ [K|K]; [contradiction|]. now apply (proj1 IH eq_refl).
Qed.
Lemma without_nl_app m : without_nl (m ++ [b_lf]) = m.
Proof. induction m as [|c m IH]; [reflexivity|]. cbn. destruct (m ++ [b_lf]) eqn:E; [destruct m; discriminate E|]. now rewrite IH. Qed.
Lemma without_nl_no m : ~ In b_lf m -> without_nl m = m.
Proof. induction m as [|c [|d m] IH]; intro N; [reflexivity| |].
  - cbn. rewrite (proj2 (beq_false c b_lf)); [reflexivity|]. intro K. apply N. now left.
  - change (without_nl (c :: d :: m)) with (c :: without_nl (d :: m)). rewrite IH; [reflexivity|]. intro K. apply N. now right. Qed.
Lemma only_nl_true l : only_nl l = true <-> l = [] \/ l = [b_lf].
Proof. destruct l as [|c [|d l]]; cbn; [tauto| |].
  - rewrite beq_true. split; [intros ->; tauto|]. intros [K|K]; [discriminate|now injection K].
  - split; [discriminate|]. intros [K|K]; discriminate. Qed.

(** ** Quoted fields *)
Lemma doubled_app a b : doubled (a ++ b) = doubled a ++ doubled b.
Proof. unfold doubled. apply flat_map_app. Qed.
Lemma doubled_plain a : ~ In b_dquote a -> doubled a = a.
Proof. induction a as [|c a IH]; intro N; [reflexivity|]. cbn. change x22 with b_dquote. rewrite (proj2 (beq_false c b_dquote)).
  - cbn. f_equal. apply IH. intro K. apply N. now right.
  - intro K. apply N. now left. Qed.
(** Text without quotes in front of a quoted text. *)
Lemma doubled_split a : forall t w k, ~ In b_dquote a -> a ++ t = doubled w ++ b_dquote :: k ->
  exists w', w = a ++ w' /\ t = doubled w' ++ b_dquote :: k.
Proof.
  induction a as [|c a IH]; intros t w k N E.
  - exists w. split; [reflexivity|exact E].
  - destruct w as [|d w].
    + injection E as -> _. exfalso. apply N. now left.
    + cbn in E. change x22 with b_dquote in E. destruct (beq d b_dquote) eqn:D.
      * injection E as -> _. exfalso. apply N. now left.
      * injection E as -> E. destruct (IH t w k) as (w'&->&E').
        -- intro K. apply N. now right.
        -- exact E.
        -- exists w'. split; [reflexivity|exact E'].
Qed.
Lemma doubled_quote t w k : b_dquote :: t = doubled w ++ b_dquote :: k ->
  w = [] /\ t = k \/ exists w', w = b_dquote :: w' /\ t = b_dquote :: doubled w' ++ b_dquote :: k.
Proof.
  destruct w as [|d w]; intro E.
  - injection E as ->. now left.
  - right. cbn in E. change x22 with b_dquote in E. destruct (beq d b_dquote) eqn:D.
    + apply beq_true in D as ->. injection E as ->. now exists w.
    + injection E as <- _. rewrite beq_refl in D. discriminate.
Qed.

(** What follows the field. *)
Definition follows (k : bytes) (after : option bytes) (rest : list bytes) : Prop :=
  match after with
  | Some l => k = b_semicolon :: l ++ List.concat rest /\ tidy (l :: rest)
  | None => (k = b_lf :: List.concat rest \/ k = [] /\ rest = []) /\ tidy rest
  end.

Lemma quoted_sound fuel : forall field line rest v after rest',
  tidy (line :: rest) -> quoted fuel field line rest = Ok (v, after, rest') ->
  exists w k, v = field ++ w /\ line ++ List.concat rest = doubled w ++ b_dquote :: k /\ follows k after rest' /\
    List.length rest' <= List.length rest.
Proof.
  induction fuel as [|fuel IH]; intros field line rest v after rest' T E; cbn [quoted] in E; [discriminate E|].
  destruct (cut b_dquote line) as [[before aft]|] eqn:C.
  - apply cut_some in C as [-> N].
    assert (LF : ~ In b_lf before) by (exact (lf_at_end before (b_dquote :: aft) rest T ltac:(discriminate))).
    assert (T2 : tidy (aft :: rest)).
    { apply (tidy_suffix (before ++ [b_dquote])); [|now rewrite <- app_assoc]. intro K. apply in_app_or in K as [K|[K|[]]]; [contradiction|discriminate K]. }
    destruct aft as [|c aft].
    + injection E as <- <- <-. exists before, []. pose proof (tidy_nil _ T2) as R.
      split; [reflexivity|]. rewrite R. cbn [List.concat]. rewrite app_nil_r, doubled_plain by exact N. split; [reflexivity|]. split; [|lia].
      split; [right; split; auto|exact I].
    + destruct (beq c b_dquote) eqn:Q.
      * apply beq_true in Q as ->. apply IH in E.
        -- destruct E as (w&k&->&E&F&L). exists (before ++ b_dquote :: w), k. split; [rewrite <- !app_assoc; reflexivity|]. split; [|auto].
           rewrite doubled_app, doubled_plain by exact N. rewrite <- !app_assoc. f_equal. cbn [app doubled flat_map]. change (beq b_dquote x22) with true.
           cbn [app]. now rewrite E.
        -- apply (tidy_suffix [b_dquote]); [|exact T2]. intros [K|[]]. discriminate K.
      * destruct (beq c b_semicolon) eqn:S.
        -- apply beq_true in S as ->. injection E as <- <- <-. exists before, (b_semicolon :: aft ++ List.concat rest).
           split; [reflexivity|]. rewrite doubled_plain by exact N. rewrite <- app_assoc. split; [reflexivity|]. split; [|lia].
           split; [reflexivity|]. apply (tidy_suffix [b_semicolon]); [|exact T2]. intros [K|[]]. discriminate K.
        -- destruct (only_nl (c :: aft)) eqn:O; [|discriminate E]. injection E as <- <- <-. apply only_nl_true in O as [O|O]; [discriminate O|].
           injection O as -> ->. exists before, (b_lf :: List.concat rest). split; [reflexivity|]. rewrite doubled_plain by exact N.
           rewrite <- app_assoc. split; [reflexivity|]. split; [|lia]. split; [now left|]. exact (tidy_tail _ _ T).
  - apply cut_none in C. destruct line as [|c line]; [discriminate E|]. destruct rest as [|l rest].
    + apply IH in E; [|right; split; [intros []|reflexivity]]. destruct E as (w&k&_&E&_). destruct w as [|d w]; [discriminate E|].
      cbn in E. destruct (beq d x22); discriminate E.
    + apply IH in E; [|exact (tidy_tail _ _ T)]. destruct E as (w&k&->&E&F&L). exists ((c :: line) ++ w), k.
      split; [now rewrite <- app_assoc|]. split; [|split; [exact F|cbn; lia]].
      rewrite doubled_app, (doubled_plain (c :: line)) by exact C. rewrite <- app_assoc. f_equal. exact E.
Qed.

Lemma quoted_complete fuel : forall field line rest w k,
  tidy (line :: rest) -> List.length (line ++ List.concat rest) < fuel ->
  line ++ List.concat rest = doubled w ++ b_dquote :: k ->
  match k with [] => True | c :: _ => c = b_semicolon \/ c = b_lf end ->
  exists after rest', quoted fuel field line rest = Ok (field ++ w, after, rest') /\ follows k after rest'.
Proof.
  induction fuel as [|fuel IH]; intros field line rest w k T L E K; [lia|]. cbn [quoted].
  destruct (cut b_dquote line) as [[before aft]|] eqn:C.
  - apply cut_some in C as [-> N].
    assert (LF : ~ In b_lf before) by (exact (lf_at_end before (b_dquote :: aft) rest T ltac:(discriminate))).
    assert (T2 : tidy (aft :: rest)).
    { apply (tidy_suffix (before ++ [b_dquote])); [|now rewrite <- app_assoc]. intro J. apply in_app_or in J as [J|[J|[]]]; [contradiction|discriminate J]. }
    rewrite <- app_assoc in E. destruct (doubled_split _ _ _ _ N E) as (w'&->&E'). cbn [app] in E'. apply doubled_quote in E' as [[-> E']|(w2&->&E')].
    + rewrite app_nil_r. destruct k as [|c k].
      * destruct aft as [|c aft]; [|discriminate E']. exists None, rest. split; [reflexivity|]. split; [|exact (tidy_tail _ _ T)].
        right. split; [reflexivity|exact (tidy_nil _ T2)].
      * destruct K as [->| ->].
        -- destruct aft as [|c aft]; [rewrite (tidy_nil _ T2) in E'; discriminate E'|]. injection E' as -> E'. cbn [app].
           exists (Some aft), rest. split; [reflexivity|]. split; [now rewrite E'|].
           apply (tidy_suffix [b_semicolon]); [|exact T2]. intros [J|[]]. discriminate J.
        -- destruct (line_lf _ _ _ T2 E') as [-> <-]. exists None, rest. split; [reflexivity|]. split; [now left|]. exact (tidy_tail _ _ T).
    + destruct aft as [|c aft]; [rewrite (tidy_nil _ T2) in E'; discriminate E'|]. injection E' as -> E'. rewrite beq_refl.
      destruct (IH (field ++ before ++ [b_dquote]) aft rest w2 k) as (after&rest'&Q&F).
      * apply (tidy_suffix [b_dquote]); [|exact T2]. intros [J|[]]. discriminate J.
      * rewrite !app_length in L. cbn in L. rewrite app_length. lia.
      * exact E'.
      * exact K.
      * exists after, rest'. split; [|exact F]. rewrite Q. do 3 f_equal. rewrite <- !app_assoc. reflexivity.
  - apply cut_none in C. destruct (doubled_split _ _ _ _ C E) as (w'&->&E'). destruct line as [|c line].
    + rewrite (tidy_nil _ T) in E'. destruct w' as [|d w']; [discriminate E'|]. cbn in E'. destruct (beq d x22); discriminate E'.
    + destruct rest as [|l rest].
      * destruct w' as [|d w']; [discriminate E'|]. cbn in E'. destruct (beq d x22); discriminate E'.
      * destruct (IH (field ++ c :: line) l rest w' k) as (after&rest'&Q&F).
        -- exact (tidy_tail _ _ T).
        -- rewrite app_length in L. cbn [List.concat List.length] in L. lia.
        -- exact E'.
        -- exact K.
        -- exists after, rest'. split; [|exact F]. rewrite Q. now rewrite <- app_assoc.
Qed.

(** ** Records *)
Lemma blanks_lf_end m : blanks (m ++ [b_lf]) -> blanks m.
Proof.
  intros (l&E&K). destruct l as [|x l _] using rev_ind.
  - destruct m; discriminate E.
  - rewrite concat_app in E. cbn [List.concat] in E. rewrite app_nil_r in E.
    assert (I : In x blank_chars) by (apply K; apply in_or_app; right; now left).
    assert (X : x = [b_lf]).
    { assert (J : exists y, x = y ++ [b_lf]).
      { destruct x as [|c x] using rev_ind; [destruct (blank_bytes [] I) as (c&r&Q&_); discriminate Q|].
        rewrite app_assoc in E. apply app_inj_tail in E as [_ ->]. eauto. }
      destruct J as (y&->). clear -I. unfold blank_chars in I. cbn [In] in I.
      repeat (destruct I as [I|I]; [destruct y as [|a [|b [|c [|? ?]]]]; try discriminate I; reflexivity|]). destruct I. }
    subst x. apply app_inj_tail in E as [-> _]. exists l. split; [reflexivity|]. intros y J. apply K. apply in_or_app. now left.
Qed.
(** One field of a record: what [fields] does with the line. *)
Definition step (line : bytes) (rest : list bytes) : outcome (bytes * option bytes * list bytes) :=
  let line := trim_blanks_left line in
  let plain :=
    let (field, after) := match cut b_semicolon line with Some (a, b) => (a, Some b) | None => (without_nl line, None) end in
    match cut b_dquote field with Some _ => Err | None => Ok (field, after, rest) end in
  match line with
  | c :: line' => if beq c b_dquote then quoted (S (List.length line' + List.length (List.concat rest))) [] line' rest else plain
  | [] => plain
  end.
Lemma fields_step fuel line rest :
  fields (S fuel) line rest =
  do (field, after, rest) <- step line rest;
  match after with
  | None => Ok ([field], rest)
  | Some line => do (fs, rest) <- fields fuel line rest; Ok (field :: fs, rest)
  end.
Proof.
  cbn [fields]. unfold step. destruct (trim_blanks_left line) as [|c l]; [reflexivity|].
  destruct (beq c b_dquote); [reflexivity|].
  destruct (cut b_semicolon (c :: l)) as [[a b]|].
  - destruct (cut b_dquote a); reflexivity.
  - destruct (cut b_dquote (without_nl (c :: l))); reflexivity.
Qed.

Lemma step_sound line rest v after rest' : tidy (line :: rest) -> step line rest = Ok (v, after, rest') ->
  exists t k, field_is t v /\ line ++ List.concat rest = t ++ k /\ follows k after rest' /\ List.length rest' <= List.length rest.
Proof.
  intros T E. unfold step in E. destruct (trim_left_split line) as (a&EL&A&N). set (l := trim_blanks_left line) in *. clearbody l.
  assert (P : (let (field, after) := match cut b_semicolon l with Some (a, b) => (a, Some b) | None => (without_nl l, None) end in
               match cut b_dquote field with Some _ => Err | None => Ok (field, after, rest) end) = Ok (v, after, rest') ->
              exists t k, field_is t v /\ line ++ List.concat rest = t ++ k /\ follows k after rest' /\ List.length rest' <= List.length rest).
  { clear E. destruct (cut b_semicolon l) as [[f b]|] eqn:C.
    - apply cut_some in C as [-> NC]. destruct (cut b_dquote f) eqn:Q; [discriminate|]. apply cut_none in Q.
      intro E. injection E as <- <- <-. subst line.
      assert (LF : ~ In b_lf (a ++ f)).
      { apply (lf_at_end (a ++ f) (b_semicolon :: b) rest); [now rewrite <- app_assoc|discriminate]. }
      exists (a ++ f), (b_semicolon :: b ++ List.concat rest). split; [|split; [|split; [|lia]]].
      + constructor; auto.
        * intro K. apply LF. apply in_or_app. now left.
        * intro K. apply LF. apply in_or_app. now right.
        * intros (x&r&I&->). apply N. exists x, (r ++ b_semicolon :: b). split; [exact I|]. now rewrite app_assoc.
      + rewrite <- !app_assoc. reflexivity.
      + split; [reflexivity|]. apply (tidy_suffix (a ++ f ++ [b_semicolon])).
        * rewrite app_assoc. intro K. apply in_app_or in K as [K|[K|[]]]; [contradiction|discriminate K].
        * rewrite <- !app_assoc. exact T.
    - apply cut_none in C. destruct (cut b_dquote (without_nl l)) eqn:Q; [discriminate|]. apply cut_none in Q.
      intro E. injection E as <- <- <-. subst line. destruct T as [[(m&M&NM) T]|[NM ->]].
      + assert (D : exists a' l', a ++ l = (a' ++ l') ++ [b_lf] /\ blanks a' /\ l' = without_nl l /\ ~ starts_blank l' /\ m = a' ++ l').
        { destruct l as [|c l _] using rev_ind.
          - rewrite app_nil_r in M |- *. subst a. exists m, []. rewrite app_nil_r. split; [reflexivity|]. split; [now apply blanks_lf_end|].
            split; [reflexivity|]. split; [exact N|reflexivity].
          - rewrite app_assoc in M. apply app_inj_tail in M as [<- ->]. exists a, l. rewrite without_nl_app. rewrite <- app_assoc.
            split; [reflexivity|]. split; [exact A|]. split; [reflexivity|]. split; [|reflexivity].
            intros (x&r&I&->). apply N. exists x, (r ++ [b_lf]). split; [exact I|]. now rewrite app_assoc. }
        destruct D as (a'&l'&D1&D2&D3&D4&D5). rewrite <- D3 in *.
        exists (a' ++ l'), (b_lf :: List.concat rest). split; [|split; [|split; [|lia]]].
        * constructor; auto.
          -- intro K. apply NM. rewrite D5. apply in_or_app. now left.
          -- intro K. apply C. rewrite D3 in K. clear -K. induction l as [|c [|d l] IH]; [exact K| |].
             ++ cbn in K. destruct (beq c b_lf); [destruct K|exact K].
             ++ change (without_nl (c :: d :: l)) with (c :: without_nl (d :: l)) in K. destruct K as [K|K]; [now left|right; auto].
          -- intro K. apply NM. rewrite D5. apply in_or_app. now right.
        * rewrite D1. rewrite <- !app_assoc. reflexivity.
        * split; [now left|exact T].
      + assert (NL : ~ In b_lf l) by (intro K; apply NM; apply in_or_app; now right).
        rewrite without_nl_no in Q |- * by exact NL. exists (a ++ l), []. split; [|split; [|split; [|lia]]].
        * constructor; auto. intro K. apply NM. apply in_or_app. now left.
        * cbn [List.concat]. now rewrite !app_nil_r.
        * split; [right; auto|exact I]. }
  destruct l as [|c l]; [exact (P E)|]. destruct (beq c b_dquote) eqn:Q; [|exact (P E)]. clear P.
  apply beq_true in Q as ->. subst line.
  assert (LF : ~ In b_lf (a ++ [b_dquote])).
  { intro K. apply in_app_or in K as [K|[K|[]]]; [|discriminate K]. revert K. now apply (lf_at_end a (b_dquote :: l) rest). }
  apply quoted_sound in E.
  - destruct E as (w&k&->&E&F&L). exists (a ++ [b_dquote] ++ doubled w ++ [b_dquote]), k. split; [|split; [|split; [exact F|exact L]]].
    + constructor; [exact A|]. intro K. apply LF. apply in_or_app. now left.
    + rewrite <- !app_assoc. cbn [app]. now rewrite E.
  - apply (tidy_suffix (a ++ [b_dquote])); [exact LF|]. now rewrite <- app_assoc.
Qed.

Lemma step_complete line rest t v k : tidy (line :: rest) -> field_is t v -> line ++ List.concat rest = t ++ k ->
  match k with [] => True | c :: _ => c = b_semicolon \/ c = b_lf end ->
  exists after rest', step line rest = Ok (v, after, rest') /\ follows k after rest'.
Proof.
  intros T F E K. unfold step. destruct F as [a v A LA N1 N2 N3 N4|a v A LA].
  - assert (LF : ~ In b_lf (a ++ v)) by (intro J; apply in_app_or in J as [J|J]; contradiction).
    destruct (in_line _ _ _ _ T LF E) as (l&->&E'&T'). rewrite <- app_assoc, trim_left_blanks by exact A.
    destruct v as [|v0 v].
    + cbn [app]. destruct k as [|c k].
      * apply app_eq_nil in E' as [-> ER]. exists None, rest. split; [reflexivity|]. split; [right; split; [reflexivity|exact (tidy_nil _ T')]|exact (tidy_tail _ _ T)].
      * destruct K as [->| ->].
        -- destruct l as [|d l]; [rewrite (tidy_nil _ T') in E'; discriminate E'|]. injection E' as -> E'. exists (Some l), rest. split.
           ++ rewrite trim_left_not; [reflexivity|]. intros (x&r&I&J). destruct (blank_bytes x I) as (c&rx&->&_). injection J as <- _.
              clear -I. unfold blank_chars in I. cbn [In] in I. repeat (destruct I as [I|I]; [discriminate I|]). destruct I.
           ++ split; [now rewrite E'|]. apply (tidy_suffix [b_semicolon]); [|exact T']. intros [J|[]]. discriminate J.
        -- destruct (line_lf _ _ _ T' E') as [-> <-]. exists None, rest. split; [reflexivity|]. split; [now left|exact (tidy_tail _ _ T)].
    + assert (Q : trim_blanks_left ((v0 :: v) ++ l) = (v0 :: v) ++ l).
      { apply trim_left_not. apply starts_blank_app; [discriminate|exact N4|]. destruct l as [|c l]; [exact I|]. destruct k as [|d k]; [discriminate E'|].
        injection E' as -> _. destruct K as [->| ->]; reflexivity. }
      rewrite Q. cbn [app]. rewrite (proj2 (beq_false v0 b_dquote)) by (intro J; apply N2; now left).
      change (v0 :: v ++ l) with ((v0 :: v) ++ l). destruct k as [|c k].
      * apply app_eq_nil in E' as [-> ER]. rewrite app_nil_r. exists None, rest. split.
        -- rewrite (proj2 (cut_none b_semicolon (v0 :: v))) by exact N1. rewrite without_nl_no by exact N3.
           rewrite (proj2 (cut_none b_dquote (v0 :: v))) by exact N2. reflexivity.
        -- split; [right; split; [reflexivity|exact (tidy_nil _ T')]|exact (tidy_tail _ _ T)].
      * destruct K as [->| ->].
        -- destruct l as [|d l]; [rewrite (tidy_nil _ T') in E'; discriminate E'|]. injection E' as -> E'. exists (Some l), rest. split.
           ++ rewrite (proj2 (cut_some b_semicolon ((v0 :: v) ++ b_semicolon :: l) (v0 :: v) l)) by (split; [reflexivity|exact N1]).
              rewrite (proj2 (cut_none b_dquote (v0 :: v))) by exact N2. reflexivity.
           ++ split; [now rewrite E'|]. apply (tidy_suffix [b_semicolon]); [|exact T']. intros [J|[]]. discriminate J.
        -- destruct (line_lf _ _ _ T' E') as [-> <-]. exists None, rest. split.
           ++ rewrite (proj2 (cut_none b_semicolon ((v0 :: v) ++ [b_lf]))) by (intro J; apply in_app_or in J as [J|[J|[]]]; [contradiction|discriminate J]).
              rewrite without_nl_app. rewrite (proj2 (cut_none b_dquote (v0 :: v))) by exact N2. reflexivity.
           ++ split; [now left|exact (tidy_tail _ _ T)].
  - assert (LF : ~ In b_lf (a ++ [b_dquote])) by (intro J; apply in_app_or in J as [J|[J|[]]]; [contradiction|discriminate J]).
    replace ((a ++ [x22] ++ doubled v ++ [x22]) ++ k) with ((a ++ [b_dquote]) ++ doubled v ++ b_dquote :: k) in E
      by (rewrite <- !app_assoc; reflexivity).
    destruct (in_line _ _ _ _ T LF E) as (l&->&E'&T'). rewrite <- app_assoc, trim_left_blanks by exact A. cbn [app].
    rewrite trim_left_not.
    + rewrite beq_refl. destruct (quoted_complete (S (List.length l + List.length (List.concat rest))) [] l rest v k T') as (after&rest'&Q&F).
      * rewrite app_length. lia.
      * exact E'.
      * exact K.
      * exists after, rest'. split; [exact Q|exact F].
    + intros (x&r&I&J). destruct (blank_bytes x I) as (c&rx&->&_). injection J as <- _.
      clear -I. unfold blank_chars in I. cbn [In] in I. repeat (destruct I as [I|I]; [discriminate I|]). destruct I.
Qed.

Lemma fields_sound fuel : forall line rest fs rest', tidy (line :: rest) -> fields fuel line rest = Ok (fs, rest') ->
  exists ts k, Forall2 field_is ts fs /\ ts <> [] /\ line ++ List.concat rest = join [x3b] ts ++ k /\ follows k None rest' /\
    List.length rest' <= List.length rest.
Proof.
  induction fuel as [|fuel IH]; intros line rest fs rest' T E; [discriminate E|]. rewrite fields_step in E.
  destruct (step line rest) as [[[v after] rest1]| |] eqn:S; cbn [obind] in E; try discriminate E.
  destruct (step_sound _ _ _ _ _ T S) as (t&k&F&EQ&FO&L). destruct after as [l|].
  - destruct FO as [-> T1]. destruct (fields fuel l rest1) as [[fs' rest2]| |] eqn:R; cbn [obind] in E; try discriminate E. injection E as <- <-.
    destruct (IH _ _ _ _ T1 R) as (ts&k&F2&NE&EQ2&FO&L2). exists (t :: ts), k. split; [now constructor|]. split; [discriminate|]. split; [|split; [exact FO|lia]].
    rewrite EQ, EQ2. destruct ts as [|u ts]; [contradiction|]. cbn [join]. rewrite <- !app_assoc. reflexivity.
  - injection E as <- <-. exists [t], k. split; [constructor; [exact F|constructor]|]. split; [discriminate|]. split; [exact EQ|]. split; [exact FO|exact L].
Qed.
Lemma fields_complete ts : forall fuel line rest fs k, tidy (line :: rest) -> Forall2 field_is ts fs -> ts <> [] ->
  line ++ List.concat rest = join [x3b] ts ++ k -> match k with [] => True | c :: _ => c = b_lf end ->
  List.length (join [x3b] ts) < fuel ->
  exists rest', fields fuel line rest = Ok (fs, rest') /\ follows k None rest'.
Proof.
  induction ts as [|t ts IH]; intros fuel line rest fs k T F NE E K L; [contradiction|].
  destruct fuel as [|fuel]; [lia|]. rewrite fields_step. inversion F as [|t' v ts' fs' F1 F2 E1 E2]. subst t' ts' fs. clear F.
  destruct ts as [|u ts].
  - inversion F2. subst fs'. cbn [join] in E.
    destruct (step_complete _ _ _ _ _ T F1 E) as (after&rest'&S&FO); [destruct k; [exact I|now right]|].
    rewrite S. cbn [obind]. destruct after as [l|].
    + destruct FO as [-> _]. discriminate K.
    + exists rest'. split; [reflexivity|exact FO].
  - change (join [x3b] (t :: u :: ts)) with (t ++ [x3b] ++ join [x3b] (u :: ts)) in E, L. rewrite <- !app_assoc in E. cbn [app] in E.
    destruct (step_complete _ _ _ _ _ T F1 E) as (after&rest'&S&FO); [now left|].
    rewrite S. cbn [obind]. destruct after as [l|].
    + destruct FO as [E3 T1]. injection E3 as E3. symmetry in E3.
      destruct (IH fuel l rest' fs' k T1 F2 ltac:(discriminate) E3 K) as (r&R&FO).
      * rewrite !app_length in L. cbn [List.length] in L. lia.
      * exists r. rewrite R. split; [reflexivity|exact FO].
    + destruct FO as [[E3|[E3 _]] _]; discriminate E3.
Qed.

(** No record begins with a line feed. *)
Lemma record_head fs r : ~ record_is (b_lf :: r) fs.
Proof.
  intros (ts&F&NE&E&_). destruct ts as [|t ts]; [contradiction|]. inversion F as [|t' v ts' fs' F1 F2]. subst.
  assert (X : forall k, b_lf :: r = t ++ k -> match k with [] => True | c :: _ => c <> b_lf end -> False).
  { intros k J NK. destruct F1 as [a v A LA N1 N2 N3 N4|a v A LA].
    - destruct a as [|a0 a]; [|injection J as <- _; apply LA; now left]. cbn [app] in J.
      destruct v as [|v0 v]; [|injection J as <- _; apply N3; now left]. cbn [app] in J. subst k. now apply NK.
    - destruct a as [|a0 a]; [discriminate J|]. injection J as <- _. apply LA. now left. }
  destruct ts as [|u ts].
  - cbn [join] in E. apply (X []); [now rewrite app_nil_r|exact I].
  - cbn [join] in E. apply (X _ E). discriminate.
Qed.

Lemma records_sound fuel : forall lines rows, tidy lines -> records fuel lines = Ok rows -> file_is (List.concat lines) rows.
Proof.
  induction fuel as [|fuel IH]; intros lines rows T E; [discriminate E|]. cbn [records] in E.
  destruct lines as [|l rest]; [injection E as <-; constructor|]. destruct (only_nl l) eqn:O.
  - apply only_nl_true in O as [->| ->]; cbn [List.concat app].
    + apply IH; [exact (tidy_tail _ _ T)|exact E].
    + apply file_empty. apply IH; [exact (tidy_tail _ _ T)|exact E].
  - destruct (fields _ l rest) as [[fs rest']| |] eqn:R in E; cbn [obind] in E; try discriminate E.
    destruct (records fuel rest') as [rs| |] eqn:S; cbn [obind] in E; try discriminate E. injection E as <-.
    destruct (fields_sound _ _ _ _ _ T R) as (ts&k&F&NE&EQ&[FO T']&L). cbn [List.concat]. rewrite EQ.
    assert (RI : record_is (join [x3b] ts) fs).
    { exists ts. repeat split; auto. intro J. rewrite J in EQ. cbn [app] in EQ. destruct l as [|c l]; [discriminate O|].
      destruct FO as [->|[-> _]]; [|discriminate EQ]. destruct (line_lf _ _ _ T EQ) as [Q _]. rewrite Q in O. discriminate O. }
    apply IH in S; [|exact T']. destruct FO as [->|[-> ->]].
    + apply file_row; assumption.
    + cbn [List.concat] in S. inversion S as [| | r t fs' rows' RI' FI E1|r fs' RI' E1]; subst.
      * rewrite app_nil_r. now apply file_last.
      * destruct r; discriminate E1.
      * exfalso. destruct RI' as (?&_&_&_&Q). now apply Q.
Qed.
Lemma records_complete fuel : forall lines rows, tidy lines -> List.length lines < fuel -> file_is (List.concat lines) rows ->
  records fuel lines = Ok rows.
Proof.
  induction fuel as [|fuel IH]; intros lines rows T L F; [lia|]. cbn [records].
  destruct lines as [|l rest].
  - cbn [List.concat] in F. inversion F as [| | r t fs' rows' RI' FI E1|r fs' RI' E1]; subst; [reflexivity|destruct r; discriminate E1|].
    exfalso. destruct RI' as (?&_&_&_&Q). now apply Q.
  - cbn [List.length] in L. destruct (only_nl l) eqn:O.
    + apply IH; [exact (tidy_tail _ _ T)|lia|]. apply only_nl_true in O as [->| ->]; cbn [List.concat app] in F; [exact F|].
      inversion F as [|t rows' F' E1| r t fs' rows' RI' FI E1|r fs' RI' E1]; subst.
      * exact F'.
      * exfalso. destruct r as [|c r]; [destruct RI' as (?&_&_&_&Q); now apply Q|]. injection E1 as -> _. exact (record_head _ _ RI').
      * exfalso. exact (record_head _ _ RI').
    + cbn [List.concat] in F.
      assert (X : forall r fs k, record_is r fs -> l ++ List.concat rest = r ++ k -> match k with [] => True | c :: _ => c = b_lf end ->
                  exists rest', fields (S (List.length l + List.length (List.concat rest))) l rest = Ok (fs, rest') /\ follows k None rest').
      { intros r fs k (ts&FT&NE&->&_) EQ K. apply (fields_complete ts); auto. apply (f_equal (@List.length byte)) in EQ. rewrite !app_length in EQ. lia. }
      assert (Y : forall fs rest', fields (S (List.length l + List.length (List.concat rest))) l rest = Ok (fs, rest') -> List.length rest' <= List.length rest).
      { intros fs rest' Q. destruct (fields_sound _ _ _ _ _ T Q) as (_&_&_&_&_&_&Q'). exact Q'. }
      inversion F as [E1|t rows' F' E1| r t fs' rows' RI' FI E1|r fs' RI' E1]; subst.
      * symmetry in E1. apply app_eq_nil in E1 as [-> _]. discriminate O.
      * symmetry in E1. destruct (line_lf _ _ _ T E1) as [-> _]. discriminate O.
      * symmetry in E1. destruct (X _ _ _ RI' E1 eq_refl) as (rest'&R&[[FO|[FO _]] T']); [|discriminate FO]. injection FO as FO.
        rewrite R. cbn [obind]. rewrite (IH rest' rows'); [reflexivity|exact T'| |now rewrite <- FO]. pose proof (Y _ _ R). lia.
      * destruct (X _ fs' [] RI' (eq_sym (app_nil_r _)) I) as (rest'&R&[[FO|[_ ->]] T']); [discriminate FO|].
        rewrite R. cbn [obind]. destruct fuel; [lia|reflexivity].
Qed.

Theorem csv_exact s rows : parse_csv s = Ok rows <-> file_is (unix s) rows.
Proof.
  unfold parse_csv. rewrite <- read_lines_text. split.
  - apply records_sound. apply read_lines_tidy.
  - apply records_complete; [apply read_lines_tidy|lia].
Qed.
