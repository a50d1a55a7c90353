(** * Facts about Go source: characters, quoted texts, tokens *)
From Coq Require Import Lia.
From Verif Require Import Base BaseFacts Codec_Model Codec_Proofs Mt940_Model Bank_Model Csv_Model Csv_Facts Gosrc_Model Gosrc_Spec Gosrc_Facts.
Open Scope Z_scope.
Local Ltac Zify.zify_post_hook ::= Z.to_euclidean_division_equations.

(** ** Source without NUL and byte order marks *)
Lemma decode_nonempty a s : exists r, decode_rune (a :: s) = Some r.
Proof.
  unfold decode_rune. repeat match goal with |- context [match ?x with _ => _ end] => destruct x end; eexists; reflexivity.
Qed.
Lemma decode_width s r : decode_rune s = Some r -> (1 <= r_width r)%nat.
Proof.
  unfold decode_rune. intros H. repeat match type of H with match ?x with _ => _ end = Some _ => destruct x; try discriminate H end;
  injection H as <-; cbn; lia.
Qed.
Lemma decode_string s r : decode_rune s = Some r -> r = rune_error \/ r_width r = List.length (r_string r).
Proof.
  unfold decode_rune. intros H. repeat match type of H with match ?x with _ => _ end = Some _ => destruct x; try discriminate H end;
  injection H as <-; auto.
Qed.
Lemma skipn_shorter {A} n (s : list A) : (1 <= n)%nat -> s <> [] -> (List.length (skipn n s) < List.length s)%nat.
Proof. intros. rewrite skipn_length. destruct s; [congruence|]. cbn [List.length]. lia. Qed.

Lemma source_ok_fuel s : forall n m, (List.length s <= n)%nat -> (List.length s <= m)%nat -> source_ok_ n s = source_ok_ m s.
Proof.
  remember (List.length s) as k eqn:Ek. revert s Ek. induction k as [k IH] using lt_wf_ind. intros s -> n m Hn Hm.
  destruct s as [|b s]; [destruct n, m; reflexivity|]. destruct n as [|n]; [cbn in Hn; lia|]. destruct m as [|m]; [cbn in Hm; lia|].
  cbn [source_ok_]. destruct (decode_rune (b :: s)) as [r|] eqn:E; [|reflexivity]. f_equal.
  pose proof (decode_width _ _ E) as W. pose proof (skipn_shorter (r_width r) (b :: s) W ltac:(discriminate)) as N.
  eapply IH; [exact N|reflexivity| |]; lia.
Qed.
Definition char_ok (r : rune) : bool := negb (bad r) && negb (r_code r =? 0) && negb (r_code r =? 65279).
Lemma source_ok_step s r : decode_rune s = Some r -> source_ok s = char_ok r && source_ok (skipn (r_width r) s).
Proof.
  intro E. destruct s as [|a s]; [discriminate E|]. unfold source_ok at 1. cbn [List.length source_ok_]. rewrite E. unfold char_ok, bad.
  f_equal. apply source_ok_fuel; [|lia].
  pose proof (decode_width _ _ E) as W. pose proof (skipn_shorter (r_width r) (a :: s) W ltac:(discriminate)) as N. cbn [List.length] in N. lia.
Qed.
Lemma source_ok_nil : source_ok [] = true.
Proof. reflexivity. Qed.
Lemma decode_ascii_ c t : zb c < 128 -> decode_rune (c :: t) = Some (mkRune (zb c) 1 [c]).
Proof. intro H. cbn [decode_rune]. replace (zb c <? 128) with true by lia. reflexivity. Qed.
Lemma source_ok_ascii c t : 0 < zb c < 128 -> source_ok (c :: t) = source_ok t.
Proof.
  intro H. rewrite (source_ok_step _ _ (decode_ascii_ c t ltac:(lia))). unfold char_ok, bad. cbn [r_code r_width skipn].
  replace (zb c =? 65533) with false by lia. replace (zb c =? 0) with false by lia. replace (zb c =? 65279) with false by lia. reflexivity.
Qed.
(** What is no character stays none before an ASCII character. *)
Lemma decode_error_app v c t : zb c < 128 -> decode_rune v = Some rune_error -> decode_rune (v ++ c :: t) = Some rune_error.
Proof.
  intros A. assert (N : is_cont c = false) by (unfold is_cont, in_range; lia).
  destruct v as [|a v]; [discriminate|]. cbn [app decode_rune]. destruct (zb a <? 128) eqn:Ea; [discriminate|].
  destruct v as [|b v]; cbn [app].
  { intros _. rewrite N, andb_false_r.
    destruct t as [|d t]; [reflexivity|].
    assert (N2 : in_range 160 191 c = false /\ in_range 128 159 c = false /\ in_range 144 191 c = false /\ in_range 128 143 c = false) by (unfold in_range; lia).
    destruct N2 as (->&->&->&->). rewrite ?andb_false_r. cbn [orb andb]. destruct t; [reflexivity|]. rewrite ?andb_false_r. reflexivity. }
  destruct (in_range 194 223 a && is_cont b); [intro H; exact H|].
  destruct v as [|d v]; cbn [app].
  { intros _. rewrite N, andb_false_r. destruct t; [reflexivity|]. rewrite ?andb_false_r. reflexivity. }
  match goal with |- context [if ?x then Some (mkRune _ 3 _) else _] => destruct x end; [intro H; exact H|].
  destruct v as [|e v]; cbn [app].
  { intros _. rewrite N, andb_false_r. reflexivity. }
  intro H; exact H.
Qed.
Lemma bad_error : char_ok rune_error = false. Proof. reflexivity. Qed.
Lemma source_ok_app v c t : zb c < 128 -> source_ok (v ++ c :: t) = source_ok v && source_ok (c :: t).
Proof.
  intro A. remember (List.length v) as k eqn:Ek. revert v Ek. induction k as [k IH] using lt_wf_ind. intros v ->.
  destruct v as [|a v]; [reflexivity|]. destruct (decode_nonempty a v) as (r&E).
  destruct (decode_cases _ _ E) as [->|G].
  - rewrite (source_ok_step _ _ E), (source_ok_step _ _ (decode_error_app _ _ t A E)), bad_error. reflexivity.
  - destruct G as (u&Eu&Es&_&_&_&_&D&_). rewrite (source_ok_step _ _ E), Es.
    pose proof (decode_width _ _ E) as W. pose proof (skipn_shorter (r_width r) (a :: v) W ltac:(discriminate)) as N. rewrite Es in N.
    assert (E' : decode_rune ((a :: v) ++ c :: t) = Some r) by (rewrite Eu, <- app_assoc; apply D).
    rewrite (source_ok_step _ _ E').
    assert (K : skipn (r_width r) ((a :: v) ++ c :: t) = u ++ c :: t).
    { rewrite skipn_app. rewrite Es. f_equal.
      assert (L : (r_width r <= List.length (a :: v))%nat).
      { destruct (decode_string _ _ E) as [->|L]; [cbn; lia|]. rewrite L, Eu, app_length. lia. }
      replace (r_width r - List.length (a :: v))%nat with 0%nat by lia. reflexivity. }
    rewrite K, (IH _ N u eq_refl), andb_assoc. reflexivity.
Qed.
Definition plain_ascii (p : bytes) : bool := forallb (fun c => (0 <? zb c) && (zb c <? 128)) p.
Lemma source_ok_plain p t : plain_ascii p = true -> source_ok (p ++ t) = source_ok t.
Proof.
  induction p as [|c p IH]; [reflexivity|]. cbn [plain_ascii forallb]. rewrite !andb_true_iff. intros ((A&C)&P).
  cbn [app]. rewrite source_ok_ascii by lia. now apply IH.
Qed.

(** ** Quoted texts *)
Lemma hex_char_value z : 0 <= z < 16 -> hex_value (hex_char z) = Some z.
Proof.
  intro H. unfold hex_char, hex_value. destruct (z <? 10) eqn:E.
  - rewrite zb_byte_of_Z by lia. replace (48 <=? 48 + z) with true by lia. replace (48 + z <=? 57) with true by lia. cbn [andb]. f_equal. lia.
  - rewrite zb_byte_of_Z by lia. replace (87 + z <=? 57) with false by lia. rewrite andb_false_r.
    replace (97 <=? 87 + z) with true by lia. replace (87 + z <=? 102) with true by lia. cbn [andb]. f_equal. lia.
Qed.
Lemma hex_number_digits n z : forall acc, 0 <= z -> hex_number acc (hex_digits n z) = Some (acc * 16 ^ Z.of_nat n + z mod 16 ^ Z.of_nat n).
Proof.
  induction n as [|n IH]; intros acc Hz.
  - cbn [hex_digits hex_number]. f_equal. change (16 ^ Z.of_nat 0) with 1. rewrite Z.mod_1_r. lia.
  - cbn [hex_digits hex_number]. rewrite hex_char_value by (apply Z.mod_pos_bound; lia). rewrite IH by assumption. f_equal.
    replace (Z.of_nat (S n)) with (Z.of_nat n + 1) by lia. rewrite Z.pow_add_r by lia. change (16 ^ 1) with 16.
    assert (P : 0 < 16 ^ Z.of_nat n) by (apply Z.pow_pos_nonneg; lia). set (p := 16 ^ Z.of_nat n) in *. clearbody p.
    rewrite (Z.rem_mul_r z p 16) by lia. ring.
Qed.
Lemma hex_digits_ascii n z : 0 <= z -> plain_ascii (hex_digits n z) = true.
Proof.
  intro Hz. induction n as [|n IH]; [reflexivity|]. cbn [hex_digits]. unfold plain_ascii in *. cbn [forallb]. rewrite IH, andb_true_r.
  assert (P : 0 <= z / 16 ^ Z.of_nat n mod 16 < 16) by (apply Z.mod_pos_bound; lia). revert P.
  generalize (z / 16 ^ Z.of_nat n mod 16). intros h P. unfold hex_char. destruct (h <? 10) eqn:E; rewrite zb_byte_of_Z by lia; lia.
Qed.

Section Quote.
  Variable printable : Z -> bool.
  Hypothesis printing : print_table printable.

  Lemma plain_char c t : c <> x22 -> c <> x5c -> c <> x0a -> literal (c :: t) = before [c] (literal t).
  Proof. intros. cbn [literal]. rewrite !beq_no by assumption. reflexivity. Qed.
  Lemma before_app a b o : before a (before b o) = before (a ++ b) o.
  Proof. destruct o as [[v r]|]; [|reflexivity]. cbn. now rewrite app_assoc. Qed.
  Lemma literal_high s t : Forall (fun b => 128 <= zb b) s -> literal (s ++ t) = before s (literal t).
  Proof.
    induction 1 as [|b s H _ IH]; [cbn [app]; destruct (literal t) as [[v r]|]; reflexivity|].
    cbn [app]. rewrite plain_char by (intros ->; revert H; cbv; congruence). rewrite IH, before_app. reflexivity.
  Qed.
  Lemma literal_hex z t : 0 <= z < 256 -> literal (B "\x" ++ hex_digits 2 z ++ t) = before [byte_of_Z z] (literal t).
  Proof.
    intro H. pose proof (hex_number_digits 2 z 0 ltac:(lia)) as E. rewrite Z.mod_small in E by (cbn; lia).
    change (B "\x") with [x5c; x78]. cbn [hex_digits app] in *. cbn [literal beq]. change (beq x5c x22) with false. change (beq x5c x0a) with false.
    change (beq x5c x5c) with true. cbv iota. change (letter_escape x78) with (@None byte). cbv iota. change (zb x78 =? 120) with true. cbv iota.
    rewrite E. f_equal.
  Qed.
  Lemma literal_u4 c t : 0 <= c < 65536 -> (c < 55296 \/ 57343 < c) -> literal (B "\u" ++ hex_digits 4 c ++ t) = before (utf8_char c) (literal t).
  Proof.
    intros H V. pose proof (hex_number_digits 4 c 0 ltac:(lia)) as E. rewrite Z.mod_small in E by (cbn; lia).
    change (B "\u") with [x5c; x75]. cbn [hex_digits app] in *. cbn [literal]. change (beq x5c x22) with false. change (beq x5c x0a) with false.
    change (beq x5c x5c) with true. cbv iota. change (letter_escape x75) with (@None byte). cbv iota. change (zb x75 =? 120) with false.
    change (zb x75 =? 117) with true. cbv iota. unfold char_number. rewrite E.
    replace (0 * 16 ^ Z.of_nat 4 + c) with c by lia.
    replace (((c <? 55296) || (57343 <? c)) && (c <=? 1114111)) with true by lia. reflexivity.
  Qed.
  Lemma literal_u8 c t : 0 <= c <= 1114111 -> (c < 55296 \/ 57343 < c) -> literal (B "\U" ++ hex_digits 8 c ++ t) = before (utf8_char c) (literal t).
  Proof.
    intros H V. pose proof (hex_number_digits 8 c 0 ltac:(lia)) as E. rewrite Z.mod_small in E by (cbn; lia).
    change (B "\U") with [x5c; x55]. cbn [hex_digits app] in *. cbn [literal]. change (beq x5c x22) with false. change (beq x5c x0a) with false.
    change (beq x5c x5c) with true. cbv iota. change (letter_escape x55) with (@None byte). cbv iota. change (zb x55 =? 120) with false.
    change (zb x55 =? 117) with false. change (zb x55 =? 85) with true. cbv iota. unfold char_number. rewrite E.
    replace (0 * 16 ^ Z.of_nat 8 + c) with c by lia.
    replace (((c <? 55296) || (57343 <? c)) && (c <=? 1114111)) with true by lia. reflexivity.
  Qed.
  Lemma escape1 b t e : letter_escape e = Some b -> literal (x5c :: e :: t) = before [b] (literal t).
  Proof. intro H. cbn [literal]. change (beq x5c x22) with false. change (beq x5c x0a) with false. change (beq x5c x5c) with true. cbv iota. rewrite H. reflexivity. Qed.

  Lemma utf8_small c : 0 <= c < 128 -> utf8_char c = [byte_of_Z c].
  Proof. intro H. unfold utf8_char. replace (c <? 128) with true by lia. reflexivity. Qed.
  Lemma literal_escaped s r t : good_char s r -> literal (escaped_rune printable r ++ t) = before (r_string r) (literal t).
  Proof.
    intros (u&_&_&_&U&R&V&_&S). unfold escaped_rune.
    destruct ((r_code r =? 34) || (r_code r =? 92)) eqn:E1.
    { apply orb_true_iff in E1. rewrite !Z.eqb_eq in E1. rewrite <- U. destruct E1 as [E|E]; rewrite E; (apply escape1; reflexivity). }
    destruct (printable (r_code r)) eqn:P.
    { destruct (r_code r <? 128) eqn:A; [|now apply literal_high]. rewrite S. cbn [app].
      assert (N : r_code r <> 10) by (intro N; rewrite printing in P by lia; discriminate P).
      apply plain_char; intro K; apply (f_equal zb) in K; rewrite zb_byte_of_Z in K by lia; revert K;
        match goal with |- _ = zb ?x -> _ => let v := eval vm_compute in (zb x) in change (zb x) with v end; lia. }
    rewrite <- U.
    repeat match goal with
    | |- context [if r_code r =? ?n then _ else _] => destruct (Z.eqb_spec (r_code r) n) as [->|?]; [apply escape1; reflexivity|]
    end.
    destruct ((r_code r <? 32) || (r_code r =? 127)) eqn:E2.
    { apply orb_true_iff in E2. rewrite Z.ltb_lt, Z.eqb_eq in E2. rewrite <- app_assoc, literal_hex, utf8_small by lia. reflexivity. }
    destruct (r_code r <? 65536) eqn:E3; rewrite <- app_assoc; [apply literal_u4|apply literal_u8]; lia.
  Qed.
  Lemma ascii_escaped s r : good_char s r -> forall t, source_ok (escaped_rune printable r ++ t) = source_ok t.
  Proof.
    intros (u&_&_&_&U&R&V&D&S) t. unfold escaped_rune.
    destruct ((r_code r =? 34) || (r_code r =? 92)) eqn:E1.
    { apply orb_true_iff in E1. rewrite !Z.eqb_eq in E1. destruct E1 as [E|E]; rewrite E; apply source_ok_plain; reflexivity. }
    destruct (printable (r_code r)) eqn:P.
    { rewrite (source_ok_step _ _ (D t)).
      assert (N : r_code r <> 0) by (intro N; rewrite printing in P by lia; discriminate P).
      assert (N2 : r_code r <> 65279) by (intro N2; rewrite printing in P by lia; discriminate P).
      destruct (decode_cases _ _ (D t)) as [Er|(w&Ew&Es&Eb&_)].
      - (* not an error *) exfalso. subst r. specialize (D []). cbn in D. discriminate D.
      - apply app_inv_head in Ew. subst w. rewrite Es. unfold char_ok. rewrite Eb.
        replace (r_code r =? 0) with false by lia. replace (r_code r =? 65279) with false by lia. reflexivity. }
    repeat match goal with
    | |- context [if r_code r =? ?n then _ else _] => destruct (Z.eqb_spec (r_code r) n) as [?|?]; [apply source_ok_plain; reflexivity|]
    end.
    destruct ((r_code r <? 32) || (r_code r =? 127)); [|destruct (r_code r <? 65536)]; rewrite <- app_assoc, source_ok_plain by reflexivity; apply source_ok_plain, hex_digits_ascii; lia.
  Qed.

  Lemma quoted_fuel s : forall n m, (List.length s <= n)%nat -> (List.length s <= m)%nat -> quoted_body printable n s = quoted_body printable m s.
  Proof.
    remember (List.length s) as k eqn:Ek. revert s Ek. induction k as [k IH] using lt_wf_ind. intros s -> n m Hn Hm.
    destruct s as [|b s]; [destruct n, m; reflexivity|]. destruct n as [|n]; [cbn in Hn; lia|]. destruct m as [|m]; [cbn in Hm; lia|].
    cbn [quoted_body]. destruct (decode_rune (b :: s)) as [r|] eqn:E; [|reflexivity]. f_equal.
    pose proof (decode_width _ _ E) as W. pose proof (skipn_shorter (r_width r) (b :: s) W ltac:(discriminate)) as N.
    eapply IH; [exact N|reflexivity| |]; lia.
  Qed.
  Definition body (s : bytes) : bytes := quoted_body printable (List.length s) s.
  Lemma body_step a s r : decode_rune (a :: s) = Some r ->
    body (a :: s) = (if bad r then B "\x" ++ hex_digits 2 (zb a) else escaped_rune printable r) ++ body (skipn (r_width r) (a :: s)).
  Proof.
    intro E. unfold body at 1. cbn [List.length quoted_body]. rewrite E. unfold bad. f_equal. apply quoted_fuel; [|lia].
    pose proof (decode_width _ _ E) as W. pose proof (skipn_shorter (r_width r) (a :: s) W ltac:(discriminate)) as N. cbn [List.length] in N. lia.
  Qed.
  (** strconv.Quote: the literal it writes has the text as its value, whatever the text is. *)
  Lemma literal_body s t : literal (body s ++ x22 :: t) = Some (s, t).
  Proof.
    remember (List.length s) as k eqn:Ek. revert s Ek. induction k as [k IH] using lt_wf_ind. intros s ->.
    destruct s as [|a s]; [reflexivity|]. destruct (decode_nonempty a s) as (r&E). rewrite (body_step _ _ _ E).
    pose proof (decode_width _ _ E) as W. pose proof (skipn_shorter (r_width r) (a :: s) W ltac:(discriminate)) as N.
    destruct (decode_cases _ _ E) as [->|G].
    - change (bad rune_error) with true. cbv iota. change (skipn (r_width rune_error) (a :: s)) with s in *.
      rewrite <- !app_assoc, literal_hex by apply zb_range'. rewrite (IH _ N s eq_refl), byte_of_Z_zb. reflexivity.
    - assert (Eb : bad r = false) by (destruct G as (?&?&?&?&?); assumption). rewrite Eb, <- app_assoc, (literal_escaped _ _ _ G), (IH _ N _ eq_refl).
      destruct G as (u&Eu&Es&_). cbn [before]. rewrite Es. rewrite Eu. reflexivity.
  Qed.
  Lemma source_ok_body s t : source_ok (body s ++ t) = source_ok t.
  Proof.
    remember (List.length s) as k eqn:Ek. revert s Ek. induction k as [k IH] using lt_wf_ind. intros s ->.
    destruct s as [|a s]; [reflexivity|]. destruct (decode_nonempty a s) as (r&E). rewrite (body_step _ _ _ E).
    pose proof (decode_width _ _ E) as W. pose proof (skipn_shorter (r_width r) (a :: s) W ltac:(discriminate)) as N.
    destruct (decode_cases _ _ E) as [->|G].
    - change (bad rune_error) with true. cbv iota. change (skipn (r_width rune_error) (a :: s)) with s in *.
      rewrite <- !app_assoc, source_ok_plain by reflexivity. rewrite source_ok_plain by (apply hex_digits_ascii, zb_range'). apply (IH _ N _ eq_refl).
    - assert (Eb : bad r = false) by (destruct G as (?&?&?&?&?); assumption). rewrite Eb, <- app_assoc, (ascii_escaped _ _ G). apply (IH _ N _ eq_refl).
  Qed.
End Quote.
