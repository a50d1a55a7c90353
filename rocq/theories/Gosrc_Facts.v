(** * Facts about Go source *)
From Coq Require Import Lia.
From Verif Require Import Base BaseFacts Codec_Model Codec_Proofs Mt940_Model Bank_Model Csv_Model Csv_Facts Gosrc_Model Gosrc_Spec.
Open Scope Z_scope.
Local Ltac Zify.zify_post_hook ::= Z.to_euclidean_division_equations.

(** ** String literals *)
Lemma beq_no a b : a <> b -> beq a b = false.
Proof. apply beq_false. Qed.
Lemma literal_plain v r : ~ In x22 v -> ~ In x5c v -> ~ In x0a v -> literal (v ++ x22 :: r) = Some (v, r).
Proof.
  induction v as [|c v IH]; intros Q E L; [reflexivity|]. cbn [app literal].
  rewrite !beq_no by (intros ->; first [apply Q; now left|apply E; now left|apply L; now left]).
  rewrite IH; [reflexivity| | |]; intro I; [apply Q|apply E|apply L]; now right.
Qed.

Definition read_off (s x r : bytes) : Prop :=
  exists c, s = c ++ x22 :: r /\ ~ In x0a c /\ ((x = c /\ ~ In x22 c /\ ~ In x5c c) \/ (List.length x < List.length c)%nat).
Lemma read_off_more p s x r y : ~ In x0a p -> (List.length y < List.length p)%nat -> read_off s x r -> read_off (p ++ s) (y ++ x) r.
Proof.
  intros L N (c&->&K&D). exists (p ++ c). split; [now rewrite app_assoc|]. split.
  - rewrite in_app_iff. tauto.
  - right. rewrite !app_length. destruct D as [(->&_)|D]; lia.
Qed.
Lemma before_some v o x r : before v o = Some (x, r) -> exists y, o = Some (y, r) /\ x = v ++ y.
Proof. destruct o as [[y r']|]; [|discriminate]. cbn. injection 1 as <- <-. now exists y. Qed.
Lemma not_lf_zb b n : zb b = n -> n <> 10 -> b <> x0a.
Proof. intros H N ->. now apply N. Qed.
Lemma letter_escape_lf e b : letter_escape e = Some b -> e <> x0a.
Proof. intros H ->. discriminate H. Qed.
Lemma hex_not_lf b v : hex_value b = Some v -> b <> x0a.
Proof. intros H ->. discriminate H. Qed.
Lemma octal_not_lf b v : octal_value b = Some v -> b <> x0a.
Proof. intros H ->. discriminate H. Qed.
Lemma hex_number_lf ds : forall acc v, hex_number acc ds = Some v -> ~ In x0a ds.
Proof.
  induction ds as [|d ds IH]; intros acc v H; [tauto|]. cbn [hex_number] in H. destruct (hex_value d) as [h|] eqn:E; [|discriminate H].
  intros [->|I]; [discriminate E|]. eapply IH; eassumption.
Qed.
Lemma char_number_some ds u : char_number ds = Some u -> exists c, u = utf8_char c /\ ~ In x0a ds.
Proof.
  unfold char_number. destruct (hex_number 0 ds) as [c|] eqn:E; [|discriminate]. destruct (_ && _); [|discriminate]. injection 1 as <-.
  exists c. split; [reflexivity|]. eapply hex_number_lf; eassumption.
Qed.
Lemma utf8_char_length c : (List.length (utf8_char c) <= 4)%nat.
Proof. unfold utf8_char. repeat destruct (_ <? _); cbn; lia. Qed.

Lemma literal_read s : forall x r, literal s = Some (x, r) -> read_off s x r.
Proof.
  remember (List.length s) as n eqn:En. revert s En. induction n as [n IH] using lt_wf_ind. intros s -> x r H.
  destruct s as [|c s]; [discriminate H|]. cbn [literal] in H.
  destruct (beq_spec c x22) as [->|Q].
  { injection H as <- <-. exists []. split; [reflexivity|]. split; [tauto|]. left. repeat split; tauto. }
  destruct (beq_spec c x0a) as [->|L]; [discriminate H|].
  assert (G : forall k p y t, (k < List.length (c :: s))%nat -> k = List.length t -> c :: s = p ++ t -> ~ In x0a p -> (List.length y < List.length p)%nat ->
    before y (literal t) = Some (x, r) -> read_off (c :: s) x r).
  { intros k p y t K -> E I N W. apply before_some in W as (y'&W&->). rewrite E. apply read_off_more; auto. eapply IH; [exact K|reflexivity|exact W]. }
  destruct (beq_spec c x5c) as [->|E].
  - destruct s as [|e s]; [discriminate H|]. destruct (letter_escape e) as [b|] eqn:Ee.
    + eapply (G _ [x5c; e] _ s); [| | | | |exact H]; try reflexivity; [cbn; lia| |cbn; lia].
      intros [I|[I|[]]]; [discriminate I|]. eapply letter_escape_lf; [exact Ee|exact I].
    + destruct (zb e =? 120) eqn:X.
      { destruct s as [|h1 [|h2 s]]; try discriminate H. destruct (hex_number 0 [h1; h2]) as [z|] eqn:Z; [|discriminate H].
        eapply (G _ [x5c; e; h1; h2] _ s); [| | | | |exact H]; try reflexivity; [cbn; lia| |cbn; lia].
        apply hex_number_lf in Z. apply Z.eqb_eq in X. intros [I|[I|I]]; [discriminate I| |exact (Z I)]. subst e. discriminate X. }
      destruct (zb e =? 117) eqn:X1.
      { destruct s as [|h1 [|h2 [|h3 [|h4 s]]]]; try discriminate H. destruct (char_number [h1; h2; h3; h4]) as [u|] eqn:Z; [|discriminate H].
        apply char_number_some in Z as (z&->&Z).
        eapply (G _ [x5c; e; h1; h2; h3; h4] _ s); [| | | | |exact H]; try reflexivity; [cbn; lia| |].
        + apply Z.eqb_eq in X1. intros [I|[I|I]]; [discriminate I| |exact (Z I)]. subst e. discriminate X1.
        + pose proof (utf8_char_length z). cbn [List.length]. lia. }
      destruct (zb e =? 85) eqn:X2.
      { destruct s as [|h1 [|h2 [|h3 [|h4 [|h5 [|h6 [|h7 [|h8 s]]]]]]]]; try discriminate H.
        destruct (char_number [h1; h2; h3; h4; h5; h6; h7; h8]) as [u|] eqn:Z; [|discriminate H].
        apply char_number_some in Z as (z&->&Z).
        eapply (G _ [x5c; e; h1; h2; h3; h4; h5; h6; h7; h8] _ s); [| | | | |exact H]; try reflexivity; [cbn; lia| |].
        + apply Z.eqb_eq in X2. intros [I|[I|I]]; [discriminate I| |exact (Z I)]. subst e. discriminate X2.
        + pose proof (utf8_char_length z). cbn [List.length]. lia. }
      destruct s as [|h1 [|h2 s]]; try discriminate H.
      destruct (octal_value e) as [o1|] eqn:O1; [|discriminate H]. destruct (octal_value h1) as [o2|] eqn:O2; [|discriminate H].
      destruct (octal_value h2) as [o3|] eqn:O3; [|discriminate H]. destruct (_ <=? 255); [|discriminate H].
      eapply (G _ [x5c; e; h1; h2] _ s); [| | | | |exact H]; try reflexivity; [cbn; lia| |cbn; lia].
      intros [I|[I|[I|[I|[]]]]]; [discriminate I| | |]; subst; discriminate.
  - apply before_some in H as (y&W&->). apply (IH (List.length s)) in W; [|cbn; lia|reflexivity]. destruct W as (d&->&K&D).
    exists (c :: d). split; [reflexivity|]. split; [intros [I|I]; [now apply L|now apply K]|].
    destruct D as [(->&D1&D2)|D]; [left|right; cbn; lia]. split; [reflexivity|]. split; intros [I|I]; congruence.
Qed.

(** A text between quotes means itself only if it is plain. *)
Lemma app_longer (c v : bytes) x r y : c ++ x :: r = v ++ y -> (List.length v < List.length c)%nat -> exists d, c = v ++ d /\ y = d ++ x :: r /\ d <> [].
Proof.
  revert v. induction c as [|a c IH]; intros [|b v] H N; try (cbn in N; lia).
  - exists (a :: c). split; [reflexivity|]. split; [symmetry; exact H|discriminate].
  - cbn in H. injection H as <- H. destruct (IH v H) as (d&->&->&D); [cbn in N; lia|]. exists d. auto.
Qed.
Lemma literal_itself v t r : literal (v ++ x22 :: x2c :: x0a :: t) = Some (v, r) ->
  ~ In x22 v /\ ~ In x5c v /\ ~ In x0a v /\ r = x2c :: x0a :: t.
Proof.
  intro H. apply literal_read in H as (c&E&L&[(<-&Q&S)|N]).
  - apply app_inv_head in E. injection E as <-. auto.
  - exfalso. symmetry in E. destruct (app_longer _ _ _ _ _ E N) as (d&->&D&K).
    destruct d as [|a d]; [now apply K|]. cbn in D. injection D as <- D.
    destruct d as [|a d]; [discriminate D|]. cbn in D. injection D as <- D.
    destruct d as [|a d]; [discriminate D|]. cbn in D. injection D as <- D.
    apply L. apply in_or_app. right. right. right. now left.
Qed.

(** ** Characters *)
Lemma zb_range' b : 0 <= zb b < 256.
Proof. apply zb_range. Qed.
Definition bad (r : rune) : bool := (r_code r =? 65533) && Nat.eqb (r_width r) 1.
(** A character in a text. *)
Definition good_char (s : bytes) (r : rune) : Prop :=
  exists t, s = r_string r ++ t /\ skipn (r_width r) s = t /\ bad r = false /\ utf8_char (r_code r) = r_string r /\
    0 <= r_code r <= 1114111 /\ (r_code r < 55296 \/ 57343 < r_code r) /\
    (forall t', decode_rune (r_string r ++ t') = Some r) /\
    (if r_code r <? 128 then r_string r = [byte_of_Z (r_code r)] else Forall (fun b => 128 <= zb b) (r_string r)).
Ltac bools H := rewrite ?andb_true_iff, ?orb_true_iff, ?Z.leb_le, ?Z.ltb_lt, ?Z.eqb_eq in H.
Lemma decode_cases s r : decode_rune s = Some r -> r = rune_error \/ good_char s r.
Proof.
  destruct s as [|a t]; [discriminate|]. cbn [decode_rune]. pose proof (zb_range' a) as Ra.
  destruct (zb a <? 128) eqn:A.
  { injection 1 as <-. right. apply Z.ltb_lt in A. exists t. cbn [r_string r_width r_code app skipn].
    split; [reflexivity|]. split; [reflexivity|].
    split; [unfold bad; cbn; replace (zb a =? 65533) with false by lia; reflexivity|].
    split; [unfold utf8_char; replace (zb a <? 128) with true by lia; now rewrite byte_of_Z_zb|].
    split; [lia|]. split; [lia|]. split.
    - intro t'. cbn [app decode_rune]. replace (zb a <? 128) with true by lia. reflexivity.
    - replace (zb a <? 128) with true by lia. now rewrite byte_of_Z_zb. }
  apply Z.ltb_ge in A. destruct t as [|b t]; [injection 1 as <-; now left|]. pose proof (zb_range' b) as Rb.
  destruct (in_range 194 223 a && is_cont b) eqn:C2.
  { injection 1 as <-. right. pose proof C2 as C2'. unfold in_range, is_cont, in_range in C2'. bools C2'. exists t. cbn [r_string r_width r_code app skipn].
    split; [reflexivity|]. split; [reflexivity|]. split; [unfold bad; cbn; apply andb_false_r|].
    split. { unfold utf8_char. replace (_ <? 128) with false by lia. replace (_ <? 2048) with true by lia.
      rewrite <- (byte_of_Z_zb a) at 3. rewrite <- (byte_of_Z_zb b) at 3. f_equal; [f_equal; lia|]. do 2 f_equal. lia. }
    split; [lia|]. split; [lia|]. split.
    - intro t'. cbn [app decode_rune]. replace (zb a <? 128) with false by lia. rewrite C2. reflexivity.
    - replace (_ <? 128) with false by lia. repeat constructor; lia. }
  destruct t as [|c t]; [injection 1 as <-; now left|]. pose proof (zb_range' c) as Rc.
  match goal with |- context [if ?x then Some (mkRune _ 3 _) else _] => destruct x eqn:C3 end.
  { injection 1 as <-. right. pose proof C3 as C3'. unfold in_range, is_cont, in_range in C3'. bools C3'. exists t. cbn [r_string r_width r_code app skipn].
    split; [reflexivity|]. split; [reflexivity|]. split; [unfold bad; cbn; apply andb_false_r|].
    split. { unfold utf8_char. replace (_ <? 128) with false by lia. replace (_ <? 2048) with false by lia. replace (_ <? 65536) with true by lia.
      rewrite <- (byte_of_Z_zb a) at 4. rewrite <- (byte_of_Z_zb b) at 4. rewrite <- (byte_of_Z_zb c) at 4.
      f_equal; [f_equal; lia|]. f_equal; [f_equal; lia|]. do 2 f_equal. lia. }
    split; [lia|]. split; [lia|]. split.
    - intro t'. cbn [app decode_rune]. replace (zb a <? 128) with false by lia. rewrite C2, C3. reflexivity.
    - replace (_ <? 128) with false by lia. repeat constructor; lia. }
  destruct t as [|d t]; [injection 1 as <-; now left|]. pose proof (zb_range' d) as Rd.
  match goal with |- context [if ?x then Some (mkRune _ 4 _) else _] => destruct x eqn:C4 end; [|injection 1 as <-; now left].
  injection 1 as <-. right. pose proof C4 as C4'. unfold in_range, is_cont, in_range in C4'. bools C4'. exists t. cbn [r_string r_width r_code app skipn].
  split; [reflexivity|]. split; [reflexivity|]. split; [unfold bad; cbn; apply andb_false_r|].
  split. { unfold utf8_char. replace (_ <? 128) with false by lia. replace (_ <? 2048) with false by lia. replace (_ <? 65536) with false by lia.
    rewrite <- (byte_of_Z_zb a) at 5. rewrite <- (byte_of_Z_zb b) at 5. rewrite <- (byte_of_Z_zb c) at 5. rewrite <- (byte_of_Z_zb d) at 5.
    f_equal; [f_equal; lia|]. f_equal; [f_equal; lia|]. f_equal; [f_equal; lia|]. do 2 f_equal. lia. }
  split; [lia|]. split; [lia|]. split.
  - intro t'. cbn [app decode_rune]. replace (zb a <? 128) with false by lia. rewrite C2, C3, C4. reflexivity.
  - replace (_ <? 128) with false by lia. repeat constructor; lia.
Qed.
