From Verif Require Import Base BaseFacts Lexer_Model Lexer_Spec Lexer_Proofs Lexer_Facts Codec_Model Codec_Spec.
From Coq Require Import Lia ZifyBool ZifyNat ZifyN.
Open Scope Z_scope.
Ltac Zify.zify_post_hook ::= Z.div_mod_to_equations.

Lemma zb_byte_of_Z z : 0 <= z < 256 -> zb (byte_of_Z z) = z.
Proof.
  intros H. unfold byte_of_Z, zb.
  destruct (Byte.of_N (Z.to_N z)) as [b|] eqn:E.
  - apply Byte.to_of_N in E. lia.
  - apply Byte.of_N_None_iff in E. lia.
Qed.
Lemma byte_of_Z_zb b : byte_of_Z (zb b) = b.
Proof. apply zb_inj. apply zb_byte_of_Z. pose proof (zb_range b). lia. Qed.

(** ** Charset *)
Lemma to_utf8_app a b : to_utf8 (a ++ b) = to_utf8 a ++ to_utf8 b.
Proof. apply flat_map_app. Qed.

Lemma to_latin1_to_utf8_app b r : to_latin1 (utf8_of_latin1 b ++ r) = do l <- to_latin1 r; Ok (b :: l).
Proof.
  unfold utf8_of_latin1. pose proof (zb_range b). destruct (Z.ltb_spec (zb b) 128) as [Hlt|Hge].
  - cbn [app to_latin1]. now replace (zb b <? 128) with true by lia.
  - cbn [app to_latin1]. rewrite !zb_byte_of_Z by lia.
    replace (192 + zb b / 64 <? 128) with false by lia.
    replace ((128 <=? 128 + zb b mod 64) && (128 + zb b mod 64 <? 192)) with true by lia.
    destruct (Z.eq_dec (zb b / 64) 2) as [E|E].
    + replace (192 + zb b / 64 =? 194) with true by lia.
      replace (byte_of_Z (128 + zb b mod 64)) with b; [reflexivity|].
      rewrite <- (byte_of_Z_zb b) at 1. f_equal. lia.
    + replace (192 + zb b / 64 =? 194) with false by lia.
      replace (192 + zb b / 64 =? 195) with true by lia.
      replace (byte_of_Z (128 + zb b mod 64 + 64)) with b; [reflexivity|].
      rewrite <- (byte_of_Z_zb b) at 1. f_equal. lia.
Qed.
Lemma latin1_utf8 l : to_latin1 (to_utf8 l) = Ok l.
Proof.
  induction l as [|b l IH]; [reflexivity|].
  cbn [to_utf8 flat_map]. rewrite to_latin1_to_utf8_app. unfold to_utf8 in IH. now rewrite IH.
Qed.
Lemma latin1_inv : forall s l, to_latin1 s = Ok l -> s = to_utf8 l.
Proof.
  intros s. induction s as [s IH] using (induction_ltof1 _ (@List.length byte)). unfold ltof in IH.
  destruct s as [|b r]; intros l; cbn [to_latin1].
  - intros H; injection H as <-. reflexivity.
  - pose proof (zb_range b). destruct (Z.ltb_spec (zb b) 128) as [Hlt|Hge].
    + destruct (to_latin1 r) as [l'| |] eqn:E; try discriminate. intros H0; injection H0 as <-.
      apply IH in E; [|simpl; lia]. cbn [to_utf8 flat_map]. unfold utf8_of_latin1 at 1.
      replace (zb b <? 128) with true by lia. simpl. f_equal. exact E.
    + destruct r as [|c r']; [discriminate|]. pose proof (zb_range c).
      destruct ((128 <=? zb c) && (zb c <? 192)) eqn:Ec; [|discriminate].
      assert (G : forall d, 128 <= zb d -> zb d / 64 = zb b - 192 -> zb d mod 64 = zb c - 128 ->
        forall l', to_latin1 r' = Ok l' -> b :: c :: r' = to_utf8 (d :: l')).
      { intros d Hd1 Hd2 Hd3 l' El. apply IH in El; [|simpl; lia].
        cbn [to_utf8 flat_map]. unfold utf8_of_latin1 at 1.
        replace (zb d <? 128) with false by lia.
        rewrite Hd2, Hd3. replace (192 + (zb b - 192)) with (zb b) by lia.
        replace (128 + (zb c - 128)) with (zb c) by lia. rewrite !byte_of_Z_zb. simpl. do 2 f_equal. exact El. }
      destruct (Z.eqb_spec (zb b) 194) as [E1|E1].
      * destruct (to_latin1 r') as [l'| |] eqn:E; try discriminate. intros H1; injection H1 as <-.
        apply (G c); [lia|lia|lia|reflexivity].
      * destruct (Z.eqb_spec (zb b) 195) as [E2|E2]; [|discriminate].
        destruct (to_latin1 r') as [l'| |] eqn:E; try discriminate. intros H1; injection H1 as <-.
        apply G; [| | |reflexivity]; rewrite zb_byte_of_Z by lia; lia.
Qed.
Lemma latin1_not_err s : to_latin1 s <> Err.
Proof.
  induction s as [s IH] using (induction_ltof1 _ (@List.length byte)). unfold ltof in IH.
  destruct s as [|b r]; cbn [to_latin1]; [discriminate|].
  destruct (zb b <? 128).
  - pose proof (IH r ltac:(simpl; lia)). destruct (to_latin1 r); simpl; congruence.
  - destruct r as [|c r']; [discriminate|]. destruct (_ && _); [|discriminate].
    pose proof (IH r' ltac:(simpl; lia)).
    destruct (zb b =? 194); [destruct (to_latin1 r'); simpl; congruence|].
    destruct (zb b =? 195); [destruct (to_latin1 r'); simpl; congruence|discriminate].
Qed.

Lemma utf8_enc_latin1 cp : latin1_char cp -> utf8_enc cp = utf8_of_latin1 (byte_of_Z cp).
Proof.
  unfold latin1_char. intros H. unfold utf8_enc, utf8_of_latin1. rewrite zb_byte_of_Z by lia.
  destruct (cp <? 128); [reflexivity|]. now replace (cp <? 2048) with true by lia.
Qed.
Lemma string_of_latin1 cps : Forall latin1_char cps -> string_of cps = to_utf8 (map byte_of_Z cps).
Proof.
  induction 1 as [|cp cps H _ IH]; [reflexivity|].
  cbn [string_of flat_map map to_utf8]. rewrite utf8_enc_latin1 by assumption.
  unfold string_of in IH. now rewrite IH.
Qed.
Lemma latin1_string_iff s : latin1_string s <-> exists l, s = to_utf8 l.
Proof.
  split.
  - intros [cps [H ->]]. exists (map byte_of_Z cps). now apply string_of_latin1.
  - intros [l ->]. exists (map zb l). split.
    + apply Forall_forall. intros z Hz. apply in_map_iff in Hz. destruct Hz as [b [<- _]].
      unfold latin1_char. pose proof (zb_range b). lia.
    + rewrite string_of_latin1.
      * rewrite map_map. f_equal. rewrite <- (map_id l) at 1. apply map_ext. intros. symmetry. apply byte_of_Z_zb.
      * apply Forall_forall. intros z Hz. apply in_map_iff in Hz. destruct Hz as [b [<- _]].
        unfold latin1_char. pose proof (zb_range b). lia.
Qed.
Lemma to_latin1_ok_iff s : (exists l, to_latin1 s = Ok l) <-> latin1_string s.
Proof.
  rewrite latin1_string_iff. split; intros [l H]; exists l.
  - now apply latin1_inv.
  - subst. apply latin1_utf8.
Qed.
Lemma to_latin1_panic_iff s : to_latin1 s = Panic <-> ~ latin1_string s.
Proof.
  rewrite <- to_latin1_ok_iff. pose proof (latin1_not_err s).
  destruct (to_latin1 s); split; intros H0; try congruence.
  - exfalso. apply H0. eauto.
  - intros [l Hl]. discriminate.
Qed.

(** A valid Unicode string with a character above U+00FF is not Latin-1. *)
Lemma to_latin1_high cp r : unicode cp -> 255 < cp -> to_latin1 (utf8_enc cp ++ r) = Panic.
Proof.
  unfold unicode. intros Hu Hc. unfold utf8_enc.
  replace (cp <? 128) with false by lia.
  destruct (Z.ltb_spec cp 2048).
  - cbn [app to_latin1]. rewrite !zb_byte_of_Z by lia.
    replace (192 + cp / 64 <? 128) with false by lia.
    destruct (_ && _); [|reflexivity].
    replace (192 + cp / 64 =? 194) with false by lia.
    now replace (192 + cp / 64 =? 195) with false by lia.
  - destruct (Z.ltb_spec cp 65536).
    + cbn [app to_latin1]. rewrite (zb_byte_of_Z (224 + cp / 4096)) by lia.
      replace (224 + cp / 4096 <? 128) with false by lia.
      destruct (_ && _); [|reflexivity].
      replace (224 + cp / 4096 =? 194) with false by lia.
      now replace (224 + cp / 4096 =? 195) with false by lia.
    + cbn [app to_latin1]. rewrite (zb_byte_of_Z (240 + cp / 262144)) by lia.
      replace (240 + cp / 262144 <? 128) with false by lia.
      destruct (_ && _); [|reflexivity].
      replace (240 + cp / 262144 =? 194) with false by lia.
      now replace (240 + cp / 262144 =? 195) with false by lia.
Qed.
Lemma to_latin1_string_high cps : Forall unicode cps -> Exists (fun cp => 255 < cp) cps ->
  to_latin1 (string_of cps) = Panic.
Proof.
  intros Hu He. induction cps as [|cp cps IH]; [inversion He|].
  inversion Hu as [|x l Hx Hl]; subst. cbn [string_of flat_map].
  destruct (Z_le_gt_dec cp 255) as [Hle|Hgt].
  - rewrite utf8_enc_latin1 by (unfold latin1_char, unicode in *; lia).
    rewrite to_latin1_to_utf8_app.
    inversion He as [x l0 Hbad|x l0 Hrest]; subst; [lia|].
    unfold string_of in IH. now rewrite IH.
  - apply to_latin1_high; [assumption|lia].
Qed.

(** ASCII is unchanged by both conversions. *)
Definition ascii (s : bytes) : bool := forallb (fun b => zb b <? 128) s.
Lemma to_utf8_ascii s : ascii s = true -> to_utf8 s = s.
Proof.
  induction s as [|b s IH]; [reflexivity|]. cbn [ascii forallb to_utf8 flat_map]. intros H.
  apply andb_true_iff in H. destruct H as [Hb Hs]. unfold utf8_of_latin1. rewrite Hb. simpl. f_equal. now apply IH.
Qed.
Lemma to_latin1_ascii s : ascii s = true -> to_latin1 s = Ok s.
Proof. intros H. rewrite <- (to_utf8_ascii s H) at 1. apply latin1_utf8. Qed.
Lemma digit_ascii d : is_digit d = true -> (zb d <? 128) = true.
Proof. unfold is_digit. lia. Qed.
Lemma digits_ascii ds : forallb is_digit ds = true -> ascii ds = true.
Proof.
  unfold ascii. intros H. rewrite forallb_forall in *. intros x Hx. apply digit_ascii. auto.
Qed.
Lemma ascii_app a b : ascii (a ++ b) = ascii a && ascii b.
Proof. apply forallb_app. Qed.

(** ** Escaping *)
Lemma is_syntax_qmark : is_syntax b_qmark = true. Proof. reflexivity. Qed.
Lemma unescape_escape v : unescape (escape v) = v.
Proof.
  induction v as [|c v IH]; [reflexivity|]. cbn [escape flat_map].
  destruct (is_syntax c) eqn:E; cbn [app].
  - cbn [unescape]. rewrite beq_refl, E. f_equal. exact IH.
  - cbn [unescape].
    assert (Hq : beq c b_qmark = false).
    { destruct (beq_spec c b_qmark); [subst; discriminate|reflexivity]. }
    rewrite Hq. f_equal. exact IH.
Qed.
Lemma escape_inj v w : escape v = escape w -> v = w.
Proof. intros H. rewrite <- (unescape_escape v), <- (unescape_escape w). now rewrite H. Qed.
Lemma escape_app a b : escape (a ++ b) = escape a ++ escape b.
Proof. apply flat_map_app. Qed.

Lemma delim_syntax c : is_delimiter c = true -> is_syntax c = true.
Proof. unfold is_delimiter, is_syntax. destruct (beq c b_plus), (beq c b_quote), (beq c b_colon); simpl; try discriminate; rewrite ?orb_true_r; auto. Qed.
Lemma is_syntax_symbol_eq c : is_syntax_symbol c = is_syntax c.
Proof.
  unfold is_syntax_symbol, is_syntax.
  destruct (beq c b_plus), (beq c b_quote), (beq c b_colon), (beq c b_qmark), (beq c b_at); reflexivity.
Qed.
Lemma escape_all_escaped v : all_escaped (escape v) = true.
Proof.
  induction v as [|c v IH]; [reflexivity|]. cbn [escape flat_map].
  destruct (is_syntax c) eqn:E; cbn [app].
  - cbn [all_escaped]. rewrite beq_refl. exact IH.
  - cbn [all_escaped].
    assert (Hq : beq c b_qmark = false).
    { destruct (beq_spec c b_qmark); [subst; discriminate|reflexivity]. }
    rewrite Hq. assert (Hd : is_delimiter c = false).
    { destruct (is_delimiter c) eqn:Ed; [|reflexivity]. apply delim_syntax in Ed. congruence. }
    now rewrite Hd.
Qed.

(** Escaping and charset conversion commute. *)
Lemma syntax_ascii c : is_syntax c = true -> (zb c <? 128) = true.
Proof.
  intros H.
  assert (G : forall c, (negb (is_syntax c) || (zb c <? 128)) = true) by (apply byte_sweep; vm_compute; reflexivity).
  specialize (G c). rewrite H in G. exact G.
Qed.
Lemma utf8_high_not_syntax c x : (zb c <? 128) = false -> In x (utf8_of_latin1 c) -> is_syntax x = false.
Proof.
  intros H Hx. destruct (is_syntax x) eqn:E; [|reflexivity]. apply syntax_ascii in E.
  unfold utf8_of_latin1 in Hx. rewrite H in Hx. pose proof (zb_range c).
  destruct Hx as [<-|[<-|[]]]; rewrite zb_byte_of_Z in E by lia; lia.
Qed.
Lemma escape_to_utf8 l : escape (to_utf8 l) = to_utf8 (escape l).
Proof.
  induction l as [|c l IH]; [reflexivity|].
  cbn [to_utf8 flat_map escape]. fold (to_utf8 l). rewrite escape_app, IH.
  fold (escape l). rewrite to_utf8_app. f_equal.
  destruct (zb c <? 128) eqn:Ec.
  - unfold utf8_of_latin1 at 1. rewrite Ec. cbn [escape flat_map]. rewrite app_nil_r.
    destruct (is_syntax c) eqn:Es; cbn [to_utf8 flat_map app]; unfold utf8_of_latin1; rewrite Ec; reflexivity.
  - assert (Es : is_syntax c = false).
    { destruct (is_syntax c) eqn:Es; [|reflexivity]. apply syntax_ascii in Es. congruence. }
    rewrite Es. cbn [to_utf8 flat_map]. rewrite app_nil_r.
    assert (G : forall s, (forall x, In x s -> is_syntax x = false) -> escape s = s).
    { intros s. induction s as [|x s IHs]; intros Hs; [reflexivity|]. cbn [escape flat_map].
      rewrite (Hs x) by now left. simpl. f_equal. apply IHs. intros y Hy. apply Hs. now right. }
    apply G. intros x Hx. now apply (utf8_high_not_syntax c).
Qed.

Lemma marshal_text_ok l : marshal_text (to_utf8 l) = Ok (escape l).
Proof. unfold marshal_text. rewrite escape_to_utf8. apply latin1_utf8. Qed.
Lemma unmarshal_text_escape l : unmarshal_text (escape l) = to_utf8 l.
Proof. unfold unmarshal_text. rewrite <- escape_to_utf8. apply unescape_escape. Qed.

Lemma utf8_latin1_cancel_esc v w : to_latin1 (escape v) = Ok w -> exists l, v = to_utf8 l /\ w = escape l.
Proof.
  intros H.
  assert (Hu : forall w, unescape (to_utf8 w) = to_utf8 (unescape w)).
  { clear. intros w. induction w as [w IH] using (induction_ltof1 _ (@List.length byte)). unfold ltof in IH.
    destruct w as [|c r]; [reflexivity|].
    cbn [to_utf8 flat_map]. fold (to_utf8 r).
    destruct (zb c <? 128) eqn:Ec.
    - unfold utf8_of_latin1 at 1. rewrite Ec. cbn [app unescape].
      destruct (beq_spec c b_qmark) as [->|Hq].
      + destruct r as [|d r'].
        * reflexivity.
        * cbn [to_utf8 flat_map]. fold (to_utf8 r').
          destruct (is_syntax d) eqn:Ed.
          -- pose proof (syntax_ascii d Ed) as Hd. unfold utf8_of_latin1 at 1. rewrite Hd. cbn [app].
             rewrite Ed. cbn [to_utf8 flat_map]. unfold utf8_of_latin1 at 1. rewrite Hd. cbn [app]. f_equal.
             apply IH. simpl. lia.
          -- assert (Hne : exists x y, utf8_of_latin1 d ++ to_utf8 r' = x :: y /\ is_syntax x = false).
             { unfold utf8_of_latin1. destruct (zb d <? 128) eqn:Hd.
               - exists d, (to_utf8 r'). auto.
               - eexists _, _. split; [reflexivity|]. apply (utf8_high_not_syntax d); [assumption|].
                 unfold utf8_of_latin1. rewrite Hd. now left. }
             destruct Hne as [x [y [Hxy Hx]]].
             change (flat_map utf8_of_latin1 (b_qmark :: unescape (d :: r'))) with
               (b_qmark :: to_utf8 (unescape (d :: r'))).
             change (to_utf8 (b_qmark :: unescape (d :: r'))) with
               (b_qmark :: to_utf8 (unescape (d :: r'))).
             rewrite <- (IH (d :: r')) by (simpl; lia).
             cbn [to_utf8 flat_map]. fold (to_utf8 r'). rewrite Hxy, Hx. reflexivity.
      + cbn [to_utf8 flat_map]. unfold utf8_of_latin1 at 1. rewrite Ec. cbn [app]. f_equal.
        apply IH. simpl. lia.
    - assert (Hq : c <> b_qmark) by (intros ->; discriminate).
      cbn [unescape]. destruct (beq_spec c b_qmark) as [Hc|_]; [congruence|].
      cbn [to_utf8 flat_map]. fold (to_utf8 (unescape r)).
      rewrite <- (IH r) by (simpl; lia).
      assert (G : forall s t, (forall x, In x s -> is_syntax x = false) -> unescape (s ++ t) = s ++ unescape t).
      { intros s t. induction s as [|x s IHs]; intros Hs; [reflexivity|]. cbn [app unescape].
        destruct (beq_spec x b_qmark) as [->|].
        - specialize (Hs b_qmark ltac:(now left)). discriminate.
        - f_equal. apply IHs. intros y Hy. apply Hs. now right. }
      apply G. intros x Hx. now apply (utf8_high_not_syntax c). }
  pose proof (latin1_inv _ _ H) as Hv.
  exists (unescape w). rewrite <- Hu, <- Hv, unescape_escape. split; [reflexivity|].
  assert (Hl : v = to_utf8 (unescape w)) by (rewrite <- Hu, <- Hv; now rewrite unescape_escape).
  rewrite Hl in H. rewrite escape_to_utf8, latin1_utf8 in H. congruence.
Qed.
Lemma marshal_text_iff v w : marshal_text v = Ok w <-> exists l, v = to_utf8 l /\ w = escape l.
Proof.
  split.
  - apply utf8_latin1_cancel_esc.
  - intros [l [-> ->]]. apply marshal_text_ok.
Qed.
Lemma marshal_text_panic v : marshal_text v = Panic <-> ~ latin1_string v.
Proof.
  rewrite latin1_string_iff. split.
  - intros H [l ->]. rewrite marshal_text_ok in H. discriminate.
  - intros H. destruct (marshal_text v) as [w| |] eqn:E; [|exfalso; apply (latin1_not_err _ E)|reflexivity].
    apply marshal_text_iff in E. destruct E as [l [-> _]]. exfalso. apply H. eauto.
Qed.

(** ** Numbers *)
Lemma itoa_ascii z : ascii (itoa z) = true.
Proof.
  unfold itoa. destruct (z <? 0).
  - cbn [ascii forallb]. destruct (itoa_N_spec (Z.to_N (- z))) as (_&H&_).
    apply digits_ascii in H. unfold ascii in H. now rewrite H.
  - apply digits_ascii. now destruct (itoa_N_spec (Z.to_N z)) as (_&H&_).
Qed.
Lemma repeat_zero_digits k : forallb is_digit (repeat b_zero k) = true.
Proof. induction k; [reflexivity|]. simpl. exact IHk. Qed.
Lemma pad_left_digits w n : forallb is_digit (pad_left w (itoa_N n)) = true.
Proof.
  unfold pad_left. rewrite forallb_app, repeat_zero_digits. now destruct (itoa_N_spec n) as (_&->&_).
Qed.
Lemma itoa_pad_ascii w z : ascii (itoa_pad w z) = true.
Proof.
  unfold itoa_pad. destruct (z <? 0).
  - cbn [ascii forallb]. pose proof (digits_ascii _ (pad_left_digits (w - 1) (Z.to_N (- z)))) as H.
    unfold ascii in H. now rewrite H.
  - apply digits_ascii, pad_left_digits.
Qed.
Lemma number_roundtrip z : in_int64 z = true ->
  exists w, marshal_number z = Ok w /\ unmarshal_int w = Ok z.
Proof.
  intros H. exists (itoa z). unfold marshal_number, unmarshal_int.
  rewrite (to_latin1_ascii _ (itoa_ascii z)), (to_utf8_ascii _ (itoa_ascii z)).
  split; [reflexivity|now apply atoi_itoa].
Qed.
Lemma digit_roundtrip w z : in_int64 z = true ->
  exists v, marshal_digit w z = Ok v /\ unmarshal_int v = Ok z.
Proof.
  intros H. exists (itoa_pad w z). unfold marshal_digit, unmarshal_int.
  rewrite (to_latin1_ascii _ (itoa_pad_ascii w z)), (to_utf8_ascii _ (itoa_pad_ascii w z)).
  split; [reflexivity|now apply atoi_itoa_pad].
Qed.
Lemma digit_width w z : 0 <= z < 10 ^ Z.of_nat w -> (0 < w)%nat ->
  exists v, marshal_digit w z = Ok v /\ List.length v = w /\ forallb is_digit v = true.
Proof.
  intros H Hw. exists (itoa_pad w z). unfold marshal_digit.
  rewrite (to_latin1_ascii _ (itoa_pad_ascii w z)). split; [reflexivity|].
  unfold itoa_pad. replace (z <? 0) with false by lia. split; [|apply pad_left_digits].
  unfold pad_left. rewrite app_length, repeat_length.
  assert (Hl : (List.length (itoa_N (Z.to_N z)) <= w)%nat).
  { apply itoa_N_length; [|assumption].
    assert (G : Z.of_N (10 ^ N.of_nat w) = 10 ^ Z.of_nat w).
    { rewrite N2Z.inj_pow. f_equal. lia. }
    lia. }
  lia.
Qed.

(** ** Binary *)
Lemma read_until_at_digits ds r : forallb is_digit ds = true -> read_until_at (ds ++ b_at :: r) = Some (ds, r).
Proof.
  intros H. induction ds as [|d ds IH]; [reflexivity|].
  cbn [app read_until_at]. simpl in H. apply andb_true_iff in H. destruct H as [Hd Hs].
  destruct (digit_facts d Hd) as (_&_&_&_&_&_&->&_). now rewrite (IH Hs).
Qed.
Lemma itoa_nat n : itoa (Z.of_nat n) = itoa_N (N.of_nat n).
Proof. unfold itoa. replace (Z.of_nat n <? 0) with false by lia. f_equal. lia. Qed.
Lemma binary_header_ascii n : ascii (b_at :: itoa (Z.of_nat n) ++ [b_at]) = true.
Proof.
  change (b_at :: itoa (Z.of_nat n) ++ [b_at]) with ([b_at] ++ itoa (Z.of_nat n) ++ [b_at]).
  rewrite !ascii_app, itoa_ascii. reflexivity.
Qed.
Lemma marshal_binary_eq data :
  marshal_binary data = Ok (b_at :: itoa_N (N.of_nat (List.length data)) ++ b_at :: data).
Proof.
  unfold marshal_binary. rewrite (to_latin1_ascii _ (binary_header_ascii _)), itoa_nat. cbn [obind].
  f_equal. simpl. f_equal. rewrite <- app_assoc. reflexivity.
Qed.
Lemma binary_roundtrip data rest : Z.of_nat (List.length data) <= 2 ^ 48 ->
  exists w, marshal_binary data = Ok w /\ unmarshal_binary (w ++ rest) = Ok data.
Proof.
  intros H. eexists. split; [apply marshal_binary_eq|].
  cbn [app unmarshal_binary]. rewrite beq_refl. simpl negb. cbv iota.
  rewrite <- app_assoc. cbn [app].
  set (n := N.of_nat (List.length data)).
  destruct (itoa_N_spec n) as (Hne&Hd&Hv&_).
  rewrite (read_until_at_digits _ _ Hd).
  rewrite (atoi_nonneg_digits _ n (atoi_digits_itoa n)) by (unfold int64_max; lia).
  unfold make_ok. replace ((0 <=? Z.of_N n) && (Z.of_N n <=? 2 ^ 48)) with true by lia. simpl negb. cbv iota.
  destruct (data ++ rest) as [|x xs] eqn:E.
  - destruct data; [|discriminate]. reflexivity.
  - rewrite <- E. replace (Z.to_nat (Z.of_N n)) with (List.length data) by lia.
    rewrite firstn_exact, app_length. replace (List.length data - _)%nat with 0%nat by lia.
    simpl. now rewrite app_nil_r.
Qed.

Lemma read_until_at_spec s a t : read_until_at s = Some (a, t) <-> s = a ++ b_at :: t /\ ~ In b_at a.
Proof.
  revert a t. induction s as [|c r IH]; intros a t; cbn [read_until_at].
  - split; [discriminate|]. intros [H _]. destruct a; discriminate.
  - destruct (beq_spec c b_at) as [->|Hc].
    + split.
      * intros H; injection H as <- <-. split; [reflexivity|]. simpl. tauto.
      * intros [H Hn]. destruct a as [|x a]; [cbn [app] in H; injection H as ->; reflexivity|].
        cbn [app] in H. injection H as Hx _. exfalso. apply Hn. left. symmetry. exact Hx.
    + destruct (read_until_at r) as [[a' t']|].
      * split.
        -- intros H; injection H as <- <-. destruct (proj1 (IH a' t') eq_refl) as [-> Hn].
           split; [reflexivity|]. simpl. tauto.
        -- intros [H Hn]. destruct a as [|x a]; [cbn [app] in H; congruence|].
           cbn [app] in H. injection H as -> H. assert (Hn' : ~ In b_at a) by (intros Hx; apply Hn; now right).
           pose proof (proj2 (IH a t) (conj H Hn')) as G. injection G as -> ->. reflexivity.
      * split; [discriminate|]. intros [H Hn]. destruct a as [|x a]; [cbn [app] in H; congruence|].
        cbn [app] in H. injection H as -> H. assert (Hn' : ~ In b_at a) by (intros Hx; apply Hn; now right).
        pose proof (proj2 (IH a t) (conj H Hn')) as G. discriminate.
Qed.

Lemma unmarshal_binary_iff value data :
  unmarshal_binary value = Ok data <->
  exists size rest n, value = b_at :: size ++ b_at :: rest /\ ~ In b_at size /\
    atoi size = Ok n /\ 0 <= n <= 2 ^ 48 /\ (rest = [] -> n = 0) /\
    data = firstn (Z.to_nat n) rest ++ repeat b_nul (Z.to_nat n - List.length rest).
Proof.
  split.
  - destruct value as [|c r]; [discriminate|]. cbn [unmarshal_binary].
    destruct (beq_spec c b_at) as [->|]; [|discriminate]. simpl negb. cbv iota.
    destruct (read_until_at r) as [[size rest]|] eqn:Er; [|discriminate].
    apply read_until_at_spec in Er. destruct Er as [-> Hn].
    destruct (atoi size) as [n| |] eqn:Ea; try discriminate.
    destruct (make_ok n) eqn:Em; [|discriminate]. simpl negb. cbv iota. unfold make_ok in Em.
    intros H. exists size, rest, n. repeat split; try assumption; try lia.
    + intros ->. destruct (Z.eqb_spec n 0); [assumption|discriminate].
    + destruct rest as [|x xs].
      * destruct (Z.eqb_spec n 0) as [->|]; [|discriminate]. injection H as <-. reflexivity.
      * injection H as <-. reflexivity.
  - intros (size&rest&n&->&Hn&Ha&Hr&He&->). cbn [unmarshal_binary]. rewrite beq_refl. simpl negb. cbv iota.
    rewrite (proj2 (read_until_at_spec _ size rest)) by auto. rewrite Ha.
    unfold make_ok. replace ((0 <=? n) && (n <=? 2 ^ 48)) with true by lia. simpl negb. cbv iota.
    destruct rest as [|x xs]; [|reflexivity].
    rewrite (He eq_refl). reflexivity.
Qed.

(** ** Booleans *)
Lemma bool_roundtrip b : exists w, marshal_bool b = Ok w /\ unmarshal_bool w = Ok b.
Proof. destruct b; [exists (B "J")|exists (B "N")]; split; reflexivity. Qed.
Lemma to_utf8_inj a b : to_utf8 a = to_utf8 b -> a = b.
Proof. intros H. assert (Ok a = Ok b) as G by (rewrite <- !latin1_utf8; congruence). congruence. Qed.
Lemma bool_accepts w b : unmarshal_bool w = Ok b -> marshal_bool b = Ok w.
Proof.
  unfold unmarshal_bool. destruct (bytes_eqb_spec (to_utf8 w) (B "J")) as [E|_].
  - intros H; injection H as <-. change (B "J") with (to_utf8 (B "J")) in E.
    apply to_utf8_inj in E. subst. reflexivity.
  - destruct (bytes_eqb_spec (to_utf8 w) (B "N")) as [E|_]; [|discriminate].
    intros H; injection H as <-. change (B "N") with (to_utf8 (B "N")) in E.
    apply to_utf8_inj in E. subst. reflexivity.
Qed.

(** ** Dates and times *)
Lemma dec_val_inj : forall a b, forallb is_digit a = true -> forallb is_digit b = true ->
  List.length a = List.length b -> dec_val a = dec_val b -> a = b.
Proof.
  induction a as [|x a IH]; intros [|y b] Ha Hb Hl Hv; try discriminate; [reflexivity|].
  cbn [forallb] in Ha, Hb. apply andb_true_iff in Ha, Hb. destruct Ha as [Hx Ha], Hb as [Hy Hb].
  cbn [List.length] in Hl. assert (Hl' : List.length a = List.length b) by lia.
  rewrite !dec_val_cons, Hl' in Hv.
  pose proof (dec_val_bound a Ha) as B1. pose proof (dec_val_bound b Hb) as B2. rewrite Hl' in B1.
  destruct (is_digit_val x Hx) as [Ex Vx]. destruct (is_digit_val y Hy) as [Ey Vy].
  assert (digit_val x = digit_val y /\ dec_val a = dec_val b) as [E1 E2].
  { remember (10 ^ N.of_nat (List.length b))%N as P.
    assert (digit_val x = digit_val y) by nia. split; [assumption|]. nia. }
  f_equal; [congruence|]. now apply IH.
Qed.
Lemma pad_left_spec w n : (List.length (itoa_N n) <= w)%nat ->
  List.length (pad_left w (itoa_N n)) = w /\ dec_val (pad_left w (itoa_N n)) = n.
Proof.
  intros H. unfold pad_left. rewrite app_length, repeat_length, dec_val_zeros. split; [lia|].
  now destruct (itoa_N_spec n) as (_&_&->&_).
Qed.
Lemma digit2 z : 0 <= z < 100 -> append_int 2 z = [digit_char (Z.to_N (z / 10)); digit_char (Z.to_N (z mod 10))].
Proof.
  intros H. unfold append_int. replace (z <? 0) with false by lia.
  destruct (digit_char_spec (Z.to_N (z / 10)) ltac:(lia)) as [D1 V1].
  destruct (digit_char_spec (Z.to_N (z mod 10)) ltac:(lia)) as [D2 V2].
  destruct (pad_left_spec 2 (Z.to_N z)) as [L1 L2].
  { apply itoa_N_length; [|lia]. change (10 ^ N.of_nat 2)%N with 100%N. lia. }
  apply dec_val_inj.
  - apply pad_left_digits.
  - cbn [forallb]. now rewrite D1, D2.
  - rewrite L1. reflexivity.
  - rewrite L2. unfold dec_val. cbn [fold_left]. rewrite V1, V2. lia.
Qed.
Lemma getnum2_append z r : 0 <= z < 100 -> getnum2 (append_int 2 z ++ r) = Some (z, r).
Proof.
  intros H. rewrite digit2 by assumption. cbn [app getnum2].
  destruct (digit_char_spec (Z.to_N (z / 10)) ltac:(lia)) as [-> H1].
  destruct (digit_char_spec (Z.to_N (z mod 10)) ltac:(lia)) as [-> H2].
  simpl andb. cbv iota. do 2 f_equal. unfold dec_val. cbn [fold_left]. rewrite H1, H2. lia.
Qed.
Lemma getnum2_inv s z r : getnum2 s = Some (z, r) -> s = append_int 2 z ++ r /\ 0 <= z < 100.
Proof.
  destruct s as [|a [|b s]]; try discriminate. cbn [getnum2].
  destruct (is_digit a && is_digit b) eqn:E; [|discriminate]. intros H; injection H as <- <-.
  apply andb_true_iff in E. destruct E as [Ha Hb].
  destruct (is_digit_val a Ha) as [Ea Va]. destruct (is_digit_val b Hb) as [Eb Vb].
  assert (HZ : Z.of_N (dec_val [a; b]) = 10 * Z.of_N (digit_val a) + Z.of_N (digit_val b)).
  { unfold dec_val. cbn [fold_left]. lia. }
  rewrite HZ. rewrite digit2 by lia. split; [|lia]. cbn [app].
  replace (Z.to_N ((10 * Z.of_N (digit_val a) + Z.of_N (digit_val b)) / 10)) with (digit_val a) by lia.
  replace (Z.to_N ((10 * Z.of_N (digit_val a) + Z.of_N (digit_val b)) mod 10)) with (digit_val b) by lia.
  now rewrite Ea, Eb.
Qed.
Lemma append_int4 y : 0 <= y <= 9999 ->
  append_int 4 y = append_int 2 (y / 100) ++ append_int 2 (y mod 100).
Proof.
  intros H. rewrite !digit2 by lia. unfold append_int. replace (y <? 0) with false by lia.
  destruct (digit_char_spec (Z.to_N (y / 100 / 10)) ltac:(lia)) as [D1 V1].
  destruct (digit_char_spec (Z.to_N ((y / 100) mod 10)) ltac:(lia)) as [D2 V2].
  destruct (digit_char_spec (Z.to_N (y mod 100 / 10)) ltac:(lia)) as [D3 V3].
  destruct (digit_char_spec (Z.to_N ((y mod 100) mod 10)) ltac:(lia)) as [D4 V4].
  destruct (pad_left_spec 4 (Z.to_N y)) as [L1 L2].
  { apply itoa_N_length; [|lia]. change (10 ^ N.of_nat 4)%N with 10000%N. lia. }
  apply dec_val_inj.
  - apply pad_left_digits.
  - cbn [forallb app]. now rewrite D1, D2, D3, D4.
  - rewrite L1. reflexivity.
  - rewrite L2. unfold dec_val. cbn [fold_left app]. rewrite V1, V2, V3, V4. lia.
Qed.
Lemma getyear_two s : getyear s =
  match getnum2 s with
  | Some (a, s1) => match getnum2 s1 with Some (b, s2) => Some (100 * a + b, s2) | None => None end
  | None => None
  end.
Proof.
  destruct s as [|a [|b [|c [|d s]]]]; try reflexivity.
  - cbn [getyear getnum2]. destruct (_ && _); reflexivity.
  - cbn [getyear getnum2]. destruct (_ && _); reflexivity.
  - cbn [getyear getnum2 forallb].
    destruct (is_digit a); [|reflexivity]. destruct (is_digit b); [|reflexivity].
    cbn [andb getnum2]. destruct (is_digit c); [|reflexivity]. destruct (is_digit d); [|reflexivity].
    cbn [andb]. do 2 f_equal. unfold dec_val. cbn [fold_left]. lia.
Qed.
Lemma getyear_append y r : 0 <= y <= 9999 -> getyear (append_int 4 y ++ r) = Some (y, r).
Proof.
  intros H. rewrite append_int4 by assumption. rewrite getyear_two, <- app_assoc.
  rewrite getnum2_append by lia. rewrite getnum2_append by lia. do 2 f_equal. lia.
Qed.
Lemma getyear_inv s y r : getyear s = Some (y, r) -> s = append_int 4 y ++ r /\ 0 <= y <= 9999.
Proof.
  rewrite getyear_two. destruct (getnum2 s) as [[a s1]|] eqn:E1; [|discriminate].
  destruct (getnum2 s1) as [[b s2]|] eqn:E2; [|discriminate]. intros H. assert (Hy : y = 100 * a + b) by congruence. assert (s2 = r) by congruence. subst s2 y. clear H.
  apply getnum2_inv in E1. apply getnum2_inv in E2. destruct E1 as [-> H1], E2 as [-> H2].
  split; [|lia]. rewrite append_int4 by lia. rewrite <- app_assoc. replace ((100 * a + b) / 100) with a by lia. replace ((100 * a + b) mod 100) with b by lia. reflexivity.
Qed.

Lemma days_in_bound m y : days_in m y <= 31.
Proof. unfold days_in. destruct (m =? 2); [destruct (is_leap y); lia|]. destruct (_ || _); lia. Qed.
Lemma is_leap_year y : is_leap y = leap_year y.
Proof.
  unfold is_leap, leap_year. destruct (Z.eqb_spec (y mod 400) 0), (Z.eqb_spec (y mod 100) 0), (Z.eqb_spec (y mod 4) 0);
    try reflexivity; exfalso; lia.
Qed.
Lemma days_in_length m y : 1 <= m <= 12 -> days_in m y = month_length y m.
Proof.
  intros H. unfold days_in, month_length, month_lengths. rewrite is_leap_year.
  assert (C : m = 1 \/ m = 2 \/ m = 3 \/ m = 4 \/ m = 5 \/ m = 6 \/ m = 7 \/ m = 8 \/ m = 9 \/ m = 10 \/ m = 11 \/ m = 12) by lia.
  repeat (destruct C as [->|C]; [reflexivity|]). subst m. reflexivity.
Qed.
Lemma format_date_parse d : real_date d -> parse_date (format_date d) = Ok d.
Proof.
  intros [Hy [Hm Hd]]. rewrite <- days_in_length in Hd by assumption. destruct d as [y m dd]. simpl in *. pose proof (days_in_bound m y).
  unfold parse_date, format_date. cbn [d_year d_month d_day].
  rewrite getyear_append by assumption. rewrite getnum2_append by lia.
  replace ((m <=? 0) || (12 <? m)) with false by lia.
  rewrite <- (app_nil_r (append_int 2 dd)). rewrite getnum2_append by lia.
  now replace ((dd <? 1) || (days_in m y <? dd)) with false by lia.
Qed.
Lemma parse_date_inv s d : parse_date s = Ok d -> s = format_date d /\ real_date d.
Proof.
  unfold parse_date. destruct (getyear s) as [[y s1]|] eqn:E1; [|discriminate].
  destruct (getnum2 s1) as [[m s2]|] eqn:E2; [|discriminate].
  destruct ((m <=? 0) || (12 <? m)) eqn:Em; [discriminate|].
  destruct (getnum2 s2) as [[dd s3]|] eqn:E3; [|discriminate].
  destruct s3; [|discriminate]. destruct ((dd <? 1) || (days_in m y <? dd)) eqn:Ed; [discriminate|].
  intros H. assert (Hd : d = mkDate y m dd) by congruence. subst d. clear H.
  apply getyear_inv in E1. apply getnum2_inv in E2. apply getnum2_inv in E3.
  destruct E1 as [-> H1], E2 as [-> H2], E3 as [-> H3].
  unfold format_date, real_date. cbn [d_year d_month d_day]. rewrite app_nil_r. split; [reflexivity|].
  rewrite <- days_in_length by lia. lia.
Qed.
Lemma append_int_ascii w z : 0 <= z -> ascii (append_int w z) = true.
Proof. intros H. unfold append_int. replace (z <? 0) with false by lia. apply digits_ascii, pad_left_digits. Qed.
Lemma format_date_ascii d : real_date d -> ascii (format_date d) = true.
Proof. intros [Hy [Hm Hd]]. unfold format_date. rewrite !ascii_app, !append_int_ascii by lia. reflexivity. Qed.
Lemma format_time_ascii t : real_time t -> ascii (format_time t) = true.
Proof. intros [Hy [Hm Hd]]. unfold format_time. rewrite !ascii_app, !append_int_ascii by lia. reflexivity. Qed.

Lemma date_roundtrip d : real_date d -> exists w, marshal_date d = Ok w /\ unmarshal_date w = Ok d.
Proof.
  intros H. exists (format_date d). unfold marshal_date, unmarshal_date.
  rewrite (to_latin1_ascii _ (format_date_ascii d H)), (to_utf8_ascii _ (format_date_ascii d H)).
  split; [reflexivity|now apply format_date_parse].
Qed.
Lemma date_accepts w d : unmarshal_date w = Ok d -> real_date d /\ marshal_date d = Ok w.
Proof.
  unfold unmarshal_date, marshal_date. intros H. apply parse_date_inv in H. destruct H as [H Hr].
  split; [assumption|]. rewrite <- H. apply latin1_utf8.
Qed.

Lemma skip_digits_nil ds : skip_digits ds = [] <-> forallb is_digit ds = true.
Proof.
  induction ds as [|d ds IH]; [tauto|]. cbn [skip_digits forallb].
  destruct (is_digit d); [simpl; exact IH|]. split; discriminate.
Qed.
Lemma skip_fraction_nil f : skip_fraction f = [] <-> fraction f.
Proof.
  unfold fraction. destruct f as [|c [|d r]]; cbn [skip_fraction].
  - split; auto.
  - split; [discriminate|]. intros [H|(c'&ds&H&_&Hne&_)]; [discriminate|].
    injection H as -> <-. congruence.
  - destruct ((beq c b_comma || beq c "."%byte) && is_digit d) eqn:E.
    + apply andb_true_iff in E. destruct E as [Ec Ed]. rewrite skip_digits_nil. split.
      * intros H. right. exists c, (d :: r). split; [reflexivity|]. split.
        -- apply orb_true_iff in Ec. rewrite !beq_true in Ec. tauto.
        -- split; [discriminate|]. simpl. now rewrite Ed.
      * intros [H|(c'&ds&H&_&_&Hds)]; [discriminate|]. injection H as -> <-. simpl in Hds. rewrite Ed in Hds. exact Hds.
    + split; [discriminate|]. intros [H|(c'&ds&H&Hc&_&Hds)]; [discriminate|].
      injection H as <- <-. simpl in Hds. apply andb_true_iff in Hds. destruct Hds as [Hd _].
      rewrite Hd in E. destruct Hc as [->| ->]; discriminate.
Qed.
Lemma parse_time_iff s t : parse_time s = Ok t <->
  real_time t /\ exists f, s = format_time t ++ f /\ fraction f.
Proof.
  split.
  - unfold parse_time. destruct (getnum2 s) as [[h s1]|] eqn:E1; [|discriminate].
    destruct (Z.leb_spec 24 h); [discriminate|].
    destruct (getnum2 s1) as [[m s2]|] eqn:E2; [|discriminate].
    destruct (Z.leb_spec 60 m); [discriminate|].
    destruct (getnum2 s2) as [[se s3]|] eqn:E3; [|discriminate].
    destruct (Z.leb_spec 60 se); [discriminate|].
    destruct (skip_fraction s3) eqn:Ef; [|discriminate].
    intros HH; injection HH as <-. apply skip_fraction_nil in Ef.
    apply getnum2_inv in E1. apply getnum2_inv in E2. apply getnum2_inv in E3.
    destruct E1 as [-> H1'], E2 as [-> H2'], E3 as [-> H3'].
    split; [unfold real_time; simpl; lia|]. exists s3. split; [|assumption].
    unfold format_time. cbn [t_hour t_min t_sec]. now rewrite <- !app_assoc.
  - intros [[Hh [Hm Hs]] [f [-> Hf]]]. destruct t as [h m se]. cbn [t_hour t_min t_sec] in *.
    unfold parse_time, format_time. cbn [t_hour t_min t_sec]. rewrite <- !app_assoc.
    rewrite getnum2_append by lia. replace (24 <=? h) with false by lia.
    rewrite getnum2_append by lia. replace (60 <=? m) with false by lia.
    rewrite getnum2_append by lia. replace (60 <=? se) with false by lia.
    apply skip_fraction_nil in Hf. now rewrite Hf.
Qed.
Lemma time_roundtrip t : real_time t -> exists w, marshal_time t = Ok w /\ unmarshal_time w = Ok t.
Proof.
  intros H. exists (format_time t). unfold marshal_time, unmarshal_time.
  rewrite (to_latin1_ascii _ (format_time_ascii t H)), (to_utf8_ascii _ (format_time_ascii t H)).
  split; [reflexivity|]. apply parse_time_iff. split; [assumption|]. exists []. rewrite app_nil_r. split; [reflexivity|now left].
Qed.
Lemma fraction_ascii f : fraction f -> ascii f = true.
Proof.
  intros [->|(c&ds&->&Hc&_&Hd)]; [reflexivity|]. cbn [ascii forallb].
  apply digits_ascii in Hd. unfold ascii in Hd. rewrite Hd.
  destruct Hc as [->| ->]; reflexivity.
Qed.
Lemma time_accepts w t : unmarshal_time w = Ok t <->
  real_time t /\ exists f, w = format_time t ++ f /\ fraction f.
Proof.
  unfold unmarshal_time. rewrite parse_time_iff. split; intros [Hr [f [Hf Hfr]]]; (split; [assumption|]); exists f; (split; [|assumption]).
  - apply to_utf8_inj. rewrite Hf. symmetry. apply to_utf8_ascii.
    rewrite ascii_app, (format_time_ascii t Hr), (fraction_ascii f Hfr). reflexivity.
  - subst w. apply to_utf8_ascii. rewrite ascii_app, (format_time_ascii t Hr), (fraction_ascii f Hfr). reflexivity.
Qed.

Lemma in_syntax c : In c (B "?@':+") <-> is_syntax c = true.
Proof.
  unfold is_syntax. rewrite !orb_true_iff, !beq_true. simpl.
  change "?"%byte with b_qmark. change "@"%byte with b_at. change "'"%byte with b_quote.
  change ":"%byte with b_colon. change "+"%byte with b_plus. intuition congruence.
Qed.
Lemma escaped_form_iff v w : escaped_form v w <-> w = escape v.
Proof.
  split.
  - induction 1 as [|c v w H _ IH|c v w H _ IH]; [reflexivity| |]; subst w; cbn [escape flat_map].
    + rewrite in_syntax in H. destruct (is_syntax c); [congruence|reflexivity].
    + rewrite in_syntax in H. now rewrite H.
  - intros ->. induction v as [|c v IH]; [constructor|]. cbn [escape flat_map].
    destruct (is_syntax c) eqn:E.
    + apply ef_special; [now apply in_syntax|exact IH].
    + apply ef_plain; [rewrite in_syntax; congruence|exact IH].
Qed.
Lemma format_date_digits d : real_date d -> format_date d = yyyymmdd d.
Proof.
  intros [Hy [Hm Hd]]. rewrite <- days_in_length in Hd by assumption. pose proof (days_in_bound (d_month d) (d_year d)).
  unfold format_date, yyyymmdd, digits2. rewrite append_int4 by assumption.
  rewrite !digit2 by lia. reflexivity.
Qed.
Lemma format_time_digits t : real_time t -> format_time t = hhmmss t.
Proof. intros [Hy [Hm Hd]]. unfold format_time, hhmmss, digits2. rewrite !digit2 by lia. reflexivity. Qed.

(** Failing and panicking binaries. *)
Lemma unmarshal_binary_panic_iff value :
  unmarshal_binary value = Panic <->
  exists size rest n, value = b_at :: size ++ b_at :: rest /\ ~ In b_at size /\ atoi size = Ok n /\ ~ (0 <= n <= 2 ^ 48).
Proof.
  split.
  - destruct value as [|c r]; [discriminate|]. cbn [unmarshal_binary].
    destruct (beq_spec c b_at) as [->|]; [|discriminate]. simpl negb. cbv iota.
    destruct (read_until_at r) as [[size rest]|] eqn:Er; [|discriminate].
    apply read_until_at_spec in Er. destruct Er as [-> Hn].
    destruct (atoi size) as [n| |] eqn:Ea; try discriminate.
    unfold make_ok. destruct ((0 <=? n) && (n <=? 2 ^ 48)) eqn:Em; simpl negb; cbv iota.
    + destruct rest; [destruct (n =? 0)|]; discriminate.
    + intros _. exists size, rest, n. repeat split; try assumption. lia.
  - intros (size&rest&n&->&Hn&Ha&Hr). cbn [unmarshal_binary]. rewrite beq_refl. simpl negb. cbv iota.
    rewrite (proj2 (read_until_at_spec _ size rest)) by auto. rewrite Ha.
    unfold make_ok. now replace ((0 <=? n) && (n <=? 2 ^ 48)) with false by lia.
Qed.
