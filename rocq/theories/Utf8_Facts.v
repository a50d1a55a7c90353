(** * Facts about the character set middleware *)
From Coq Require Import Lia.
From Verif Require Import Base BaseFacts Codec_Model Codec_Spec Codec_Proofs Mt940_Model Transport_Model Gosrc_Spec Gosrc_Facts Gosrc_Facts2 Utf8_Model Utf8_Spec.
Open Scope Z_scope.
Local Ltac Zify.zify_post_hook ::= Z.to_euclidean_division_equations.

Lemma full_unfinished s : decode_rune s = Some rune_error -> full_rune s = false -> unfinished s.
Proof.
  destruct s as [|a s]; [discriminate|]. intros D F. split; [discriminate|].
  assert (A : 128 <= zb a). { destruct (Z.lt_ge_cases (zb a) 128) as [L|G]; [|exact G]. rewrite decode_ascii_ in D by exact L. exfalso. injection D. intros. lia. }
  clear D. pose proof (zb_range' a) as Ra. unfold full_rune in F.
  assert (S1 : (rune_size a > List.length (a :: s))%nat). { destruct (Nat.leb_spec (rune_size a) (List.length (a :: s))); [discriminate F|lia]. }
  replace (Nat.leb (rune_size a) (List.length (a :: s))) with false in F by (symmetry; apply Nat.leb_gt; lia).
  unfold rune_size, in_range in S1.
  destruct s as [|b s].
  - cbn [List.length] in S1.
    set (b0 := if zb a =? 224 then 160 else if zb a =? 240 then 144 else 128).
    destruct (Z.lt_ge_cases (zb a) 224) as [C2|C2]; [|destruct (Z.lt_ge_cases (zb a) 240) as [C3|C3]].
    + exists ((zb a - 192) * 64), [byte_of_Z 128]. assert (194 <= zb a) by (destruct ((194 <=? zb a) && (zb a <=? 223)) eqn:E; [lia|]; replace ((224 <=? zb a) && (zb a <=? 239)) with false in S1 by lia; replace ((240 <=? zb a) && (zb a <=? 244)) with false in S1 by lia; lia).
      split; [unfold unicode; lia|]. split; [discriminate|]. unfold utf8_enc. replace (_ <? 128) with false by lia. replace (_ <? 2048) with true by lia.
      cbn [app]. rewrite <- (byte_of_Z_zb a) at 3. f_equal; [f_equal; lia|]. do 2 f_equal. lia.
    + exists ((zb a - 224) * 4096 + (b0 - 128) * 64), [byte_of_Z b0; byte_of_Z 128].
      assert (B0 : (zb a = 224 /\ b0 = 160) \/ (zb a > 224 /\ b0 = 128)) by (unfold b0; destruct (Z.eqb_spec (zb a) 224); destruct (Z.eqb_spec (zb a) 240); lia). clearbody b0.
      split; [unfold unicode; lia|]. split; [discriminate|]. unfold utf8_enc. replace (_ <? 128) with false by lia. replace (_ <? 2048) with false by lia. replace (_ <? 65536) with true by lia.
      cbn [app]. rewrite <- (byte_of_Z_zb a) at 4. f_equal; [f_equal; lia|]. f_equal; [f_equal; lia|]. do 2 f_equal. lia.
    + exists ((zb a - 240) * 262144 + (b0 - 128) * 4096), [byte_of_Z b0; byte_of_Z 128; byte_of_Z 128].
      assert (zb a <= 244) by (destruct ((240 <=? zb a) && (zb a <=? 244)) eqn:E; [lia|]; replace ((194 <=? zb a) && (zb a <=? 223)) with false in S1 by lia; replace ((224 <=? zb a) && (zb a <=? 239)) with false in S1 by lia; lia).
      assert (B0 : (zb a = 240 /\ b0 = 144) \/ (zb a > 240 /\ b0 = 128)) by (unfold b0; destruct (Z.eqb_spec (zb a) 224); destruct (Z.eqb_spec (zb a) 240); lia). clearbody b0.
      split; [unfold unicode; lia|]. split; [discriminate|]. unfold utf8_enc. replace (_ <? 128) with false by lia. replace (_ <? 2048) with false by lia. replace (_ <? 65536) with false by lia.
      cbn [app]. rewrite <- (byte_of_Z_zb a) at 5. f_equal; [f_equal; lia|]. f_equal; [f_equal; lia|]. f_equal; [f_equal; lia|]. do 2 f_equal. lia.
  - pose proof (zb_range' b) as Rb.
    assert (E2 : (224 <= zb a <= 244)).
    { cbn [List.length] in S1. destruct ((194 <=? zb a) && (zb a <=? 223)); [lia|]. destruct ((224 <=? zb a) && (zb a <=? 239)) eqn:E; [lia|]. destruct ((240 <=? zb a) && (zb a <=? 244)) eqn:E'; lia. }
    destruct (second_ok a b) eqn:SB; [|discriminate F]. cbn [negb] in F.
    assert (B2 : 128 <= zb b <= 191 /\ (zb a = 224 -> 160 <= zb b) /\ (zb a = 237 -> zb b <= 159) /\ (zb a = 240 -> 144 <= zb b) /\ (zb a = 244 -> zb b <= 143)).
    { unfold second_ok, in_range in SB. destruct (Z.eqb_spec (zb a) 224); destruct (Z.eqb_spec (zb a) 237); destruct (Z.eqb_spec (zb a) 240); destruct (Z.eqb_spec (zb a) 244); lia. }
    clear SB. destruct s as [|c s].
    + destruct (Z.lt_ge_cases (zb a) 240) as [C3|C3].
      * exists ((zb a - 224) * 4096 + (zb b - 128) * 64), [byte_of_Z 128].
        split; [unfold unicode; lia|]. split; [discriminate|]. unfold utf8_enc. replace (_ <? 128) with false by lia. replace (_ <? 2048) with false by lia. replace (_ <? 65536) with true by lia.
        cbn [app]. rewrite <- (byte_of_Z_zb a) at 4. rewrite <- (byte_of_Z_zb b) at 4. f_equal; [f_equal; lia|]. f_equal; [f_equal; lia|]. do 2 f_equal. lia.
      * exists ((zb a - 240) * 262144 + (zb b - 128) * 4096), [byte_of_Z 128; byte_of_Z 128].
        split; [unfold unicode; lia|]. split; [discriminate|]. unfold utf8_enc. replace (_ <? 128) with false by lia. replace (_ <? 2048) with false by lia. replace (_ <? 65536) with false by lia.
        cbn [app]. rewrite <- (byte_of_Z_zb a) at 5. rewrite <- (byte_of_Z_zb b) at 5. f_equal; [f_equal; lia|]. f_equal; [f_equal; lia|]. f_equal; [f_equal; lia|]. do 2 f_equal. lia.
    + pose proof (zb_range' c) as Rc. destruct (is_cont c) eqn:C; [|discriminate F]. unfold is_cont, in_range in C.
      cbn [List.length] in S1.
      assert (C4 : 240 <= zb a /\ s = []).
      { destruct ((194 <=? zb a) && (zb a <=? 223)); [lia|]. destruct ((224 <=? zb a) && (zb a <=? 239)) eqn:E; [lia|]. destruct ((240 <=? zb a) && (zb a <=? 244)) eqn:E'; [|lia].
        split; [lia|]. destruct s; [reflexivity|]. cbn [List.length] in S1. lia. }
      destruct C4 as (C4&->).
      exists ((zb a - 240) * 262144 + (zb b - 128) * 4096 + (zb c - 128) * 64), [byte_of_Z 128].
      split; [unfold unicode; lia|]. split; [discriminate|]. unfold utf8_enc. replace (_ <? 128) with false by lia. replace (_ <? 2048) with false by lia. replace (_ <? 65536) with false by lia.
      cbn [app]. rewrite <- (byte_of_Z_zb a) at 5. rewrite <- (byte_of_Z_zb b) at 5. rewrite <- (byte_of_Z_zb c) at 5. f_equal; [f_equal; lia|]. f_equal; [f_equal; lia|]. f_equal; [f_equal; lia|]. do 2 f_equal. lia.
Qed.

Lemma cons_both {A} (a b : A) s t : a :: s = b :: t -> a = b /\ s = t.
Proof. intro H. split; congruence. Qed.
Lemma unfinished_full s : unfinished s -> decode_rune s = Some rune_error /\ full_rune s = false.
Proof.
  intros (N&cp&rest&U&R&E). unfold unicode in U. unfold utf8_enc in E.
  destruct (Z.ltb_spec cp 128) as [L|L].
  { destruct s as [|a s]; [congruence|]. cbn in E. apply cons_both in E as (_&E). destruct s; [|discriminate E]. now destruct R. }
  destruct (Z.ltb_spec cp 2048) as [L2|L2].
  { destruct s as [|a s]; [congruence|]. cbn [app] in E. apply cons_both in E as (<-&E). destruct s as [|b s].
    - unfold decode_rune, full_rune, rune_size, in_range. rewrite !zb_byte_of_Z by lia.
      replace (192 + cp / 64 <? 128) with false by lia. replace ((194 <=? 192 + cp / 64) && (192 + cp / 64 <=? 223)) with true by lia. split; reflexivity.
    - cbn [app] in E. apply cons_both in E as (_&E). destruct s; [|discriminate E]. now destruct R. }
  destruct (Z.ltb_spec cp 65536) as [L3|L3].
  { destruct s as [|a s]; [congruence|]. cbn [app] in E. apply cons_both in E as (<-&E).
    assert (S0 : rune_size (byte_of_Z (224 + cp / 4096)) = 3%nat).
    { unfold rune_size, in_range. rewrite !zb_byte_of_Z by lia. replace ((194 <=? 224 + cp / 4096) && (224 + cp / 4096 <=? 223)) with false by lia.
      replace ((224 <=? 224 + cp / 4096) && (224 + cp / 4096 <=? 239)) with true by lia. reflexivity. }
    destruct s as [|b s].
    - unfold decode_rune, full_rune. rewrite S0. rewrite !zb_byte_of_Z by lia. replace (224 + cp / 4096 <? 128) with false by lia. split; reflexivity.
    - cbn [app] in E. apply cons_both in E as (<-&E). destruct s as [|c s].
      + unfold decode_rune, full_rune. rewrite S0. unfold in_range at 1. rewrite !zb_byte_of_Z by lia. replace (224 + cp / 4096 <? 128) with false by lia.
        replace ((194 <=? 224 + cp / 4096) && (224 + cp / 4096 <=? 223)) with false by lia. split; [reflexivity|].
        cbn [List.length Nat.leb]. replace (second_ok (byte_of_Z (224 + cp / 4096)) (byte_of_Z (128 + cp / 64 mod 64))) with true; [reflexivity|].
        symmetry. unfold second_ok, in_range. rewrite !zb_byte_of_Z by lia.
        destruct (Z.eqb_spec (224 + cp / 4096) 224); [lia|]. destruct (Z.eqb_spec (224 + cp / 4096) 237); [lia|].
        destruct (Z.eqb_spec (224 + cp / 4096) 240); [lia|]. destruct (Z.eqb_spec (224 + cp / 4096) 244); lia.
      + cbn [app] in E. apply cons_both in E as (_&E). destruct s; [|discriminate E]. now destruct R. }
  destruct s as [|a s]; [congruence|]. cbn [app] in E. apply cons_both in E as (<-&E).
  assert (S0 : rune_size (byte_of_Z (240 + cp / 262144)) = 4%nat).
  { unfold rune_size, in_range. rewrite !zb_byte_of_Z by lia. replace ((194 <=? 240 + cp / 262144) && (240 + cp / 262144 <=? 223)) with false by lia.
    replace ((224 <=? 240 + cp / 262144) && (240 + cp / 262144 <=? 239)) with false by lia. replace ((240 <=? 240 + cp / 262144) && (240 + cp / 262144 <=? 244)) with true by lia. reflexivity. }
  assert (SO : second_ok (byte_of_Z (240 + cp / 262144)) (byte_of_Z (128 + cp / 4096 mod 64)) = true).
  { unfold second_ok, in_range. rewrite !zb_byte_of_Z by lia.
    destruct (Z.eqb_spec (240 + cp / 262144) 224); [lia|]. destruct (Z.eqb_spec (240 + cp / 262144) 237); [lia|].
    destruct (Z.eqb_spec (240 + cp / 262144) 240); [lia|]. destruct (Z.eqb_spec (240 + cp / 262144) 244); lia. }
  assert (D0 : forall t, (List.length t < 3)%nat -> decode_rune (byte_of_Z (240 + cp / 262144) :: t) = Some rune_error).
  { intros t T. cbn [decode_rune]. unfold in_range. rewrite !zb_byte_of_Z by lia. replace (240 + cp / 262144 <? 128) with false by lia.
    destruct t as [|b t]; [reflexivity|]. replace ((194 <=? 240 + cp / 262144) && (240 + cp / 262144 <=? 223)) with false by lia. cbn [andb].
    destruct t as [|c t]; [reflexivity|].
    replace ((224 <=? 240 + cp / 262144) && (240 + cp / 262144 <=? 224)) with false by lia.
    replace ((225 <=? 240 + cp / 262144) && (240 + cp / 262144 <=? 236)) with false by lia.
    replace ((237 <=? 240 + cp / 262144) && (240 + cp / 262144 <=? 237)) with false by lia.
    replace ((238 <=? 240 + cp / 262144) && (240 + cp / 262144 <=? 239)) with false by lia. cbn [andb orb].
    destruct t as [|d t]; [reflexivity|]. cbn [List.length] in T. lia. }
  destruct s as [|b s]; [split; [now apply D0; cbn; lia|unfold full_rune; rewrite S0; reflexivity]|].
  cbn [app] in E. apply cons_both in E as (<-&E).
  destruct s as [|c s]; [split; [apply D0; cbn; lia|unfold full_rune; rewrite S0; cbn [List.length Nat.leb]; rewrite SO; reflexivity]|].
  cbn [app] in E. apply cons_both in E as (<-&E).
  destruct s as [|d s].
  - split; [apply D0; cbn; lia|]. unfold full_rune. rewrite S0. cbn [List.length Nat.leb]. rewrite SO. cbn [negb].
    unfold is_cont, in_range. rewrite !zb_byte_of_Z by lia. lia.
  - cbn [app] in E. apply cons_both in E as (_&E). destruct s; [|discriminate E]. now destruct R.
Qed.

(** ** One piece *)
Lemma transform_fuel s : forall n m, (List.length s <= n)%nat -> (List.length s <= m)%nat -> latin1_transform n s = latin1_transform m s.
Proof.
  remember (List.length s) as k eqn:Ek. revert s Ek. induction k as [k IH] using lt_wf_ind. intros s -> n m Hn Hm.
  destruct s as [|b s]; [destruct n, m; reflexivity|]. destruct n as [|n]; [cbn in Hn; lia|]. destruct m as [|m]; [cbn in Hm; lia|].
  cbn [latin1_transform]. destruct (decode_rune (b :: s)) as [r|] eqn:E; [|reflexivity].
  pose proof (decode_width _ _ E) as W. pose proof (skipn_shorter (r_width r) (b :: s) W ltac:(discriminate)) as N.
  rewrite (IH _ N _ eq_refl n m) by lia. reflexivity.
Qed.
Definition transform (s : bytes) : option (bytes * bytes) := latin1_transform (List.length s) s.
Lemma transform_step a s r : decode_rune (a :: s) = Some r ->
  transform (a :: s) = if bad r && negb (full_rune (a :: s)) then Some ([], a :: s)
    else if r_code r <=? 255 then match transform (skipn (r_width r) (a :: s)) with Some (out, rest) => Some (byte_of_Z (r_code r) :: out, rest) | None => None end
    else None.
Proof.
  intro E. unfold transform at 1. cbn [List.length latin1_transform]. rewrite E. unfold bad. unfold transform.
  pose proof (decode_width _ _ E) as W. pose proof (skipn_shorter (r_width r) (a :: s) W ltac:(discriminate)) as N. cbn [List.length] in N.
  rewrite (transform_fuel _ (List.length s) (List.length (skipn (r_width r) (a :: s)))) by lia. reflexivity.
Qed.
Lemma utf8_char_enc c : utf8_char c = utf8_enc c.
Proof. reflexivity. Qed.
Lemma enc_nonempty cp : utf8_enc cp <> [].
Proof. unfold utf8_enc. repeat destruct (_ <? _); discriminate. Qed.
Lemma decode_enc cp t : unicode cp -> exists r, decode_rune (utf8_enc cp ++ t) = Some r /\ r_code r = cp /\ skipn (r_width r) (utf8_enc cp ++ t) = t /\ bad r = false.
Proof.
  intro U. unfold unicode in U. unfold utf8_enc.
  destruct (Z.ltb_spec cp 128) as [L|L].
  { cbn [app]. rewrite decode_ascii_ by (rewrite zb_byte_of_Z by lia; lia). eexists. split; [reflexivity|]. cbn [r_code r_width skipn]. rewrite zb_byte_of_Z by lia.
    repeat split. unfold bad. cbn. lia. }
  destruct (Z.ltb_spec cp 2048) as [L2|L2].
  { cbn [app decode_rune]. unfold in_range, is_cont, in_range. rewrite !zb_byte_of_Z by lia. replace (192 + cp / 64 <? 128) with false by lia.
    replace ((194 <=? 192 + cp / 64) && (192 + cp / 64 <=? 223) && ((128 <=? 128 + cp mod 64) && (128 + cp mod 64 <=? 191))) with true by lia.
    eexists. split; [reflexivity|]. cbn [r_code r_width skipn]. split; [lia|]. split; [reflexivity|]. unfold bad. cbn. apply andb_false_r. }
  destruct (Z.ltb_spec cp 65536) as [L3|L3].
  { cbn [app decode_rune]. unfold in_range, is_cont, in_range. rewrite !zb_byte_of_Z by lia. replace (224 + cp / 4096 <? 128) with false by lia.
    replace ((194 <=? 224 + cp / 4096) && (224 + cp / 4096 <=? 223)) with false by lia. cbn [andb].
    match goal with |- context [if ?x then Some (mkRune _ 3 _) else _] => replace x with true by lia end.
    eexists. split; [reflexivity|]. cbn [r_code r_width skipn]. split; [lia|]. split; [reflexivity|]. unfold bad. cbn. apply andb_false_r. }
  cbn [app decode_rune]. unfold in_range, is_cont, in_range. rewrite !zb_byte_of_Z by lia. replace (240 + cp / 262144 <? 128) with false by lia.
  replace ((194 <=? 240 + cp / 262144) && (240 + cp / 262144 <=? 223)) with false by lia. cbn [andb].
  match goal with |- context [if ?x then Some (mkRune _ 3 _) else _] => replace x with false by lia end.
  match goal with |- context [if ?x then Some (mkRune _ 4 _) else _] => replace x with true by lia end.
  eexists. split; [reflexivity|]. cbn [r_code r_width skipn]. split; [lia|]. split; [reflexivity|]. unfold bad. cbn. apply andb_false_r.
Qed.
Lemma transform_body s cps tail : latin1_body s cps tail -> transform s = Some (map byte_of_Z cps, tail).
Proof.
  intros (L&->&T). induction L as [|cp cps H _ IH].
  - cbn [string_of flat_map map app]. destruct T as [->|U]; [reflexivity|]. pose proof (unfinished_full _ U) as (D&F).
    destruct tail as [|a t]; [discriminate D|]. rewrite (transform_step _ _ _ D), F. reflexivity.
  - unfold latin1_char in H. cbn [string_of flat_map]. rewrite <- app_assoc. fold (string_of cps).
    destruct (decode_enc cp (string_of cps ++ tail)) as (r&D&C&S&Bd); [unfold unicode; lia|].
    destruct (utf8_enc cp ++ string_of cps ++ tail) as [|a t] eqn:E; [discriminate D|].
    rewrite (transform_step _ _ _ D), Bd, S, C, IH. cbn [andb]. replace (cp <=? 255) with true by lia. reflexivity.
Qed.
Lemma transform_inv s : forall out rest, transform s = Some (out, rest) -> exists cps, latin1_body s cps rest /\ out = map byte_of_Z cps.
Proof.
  remember (List.length s) as k eqn:Ek. revert s Ek. induction k as [k IH] using lt_wf_ind. intros s -> out rest H.
  destruct s as [|a s]; [injection H as <- <-; exists []; split; [split; [constructor|split; [reflexivity|now left]]|reflexivity]|].
  destruct (decode_nonempty a s) as (r&D). rewrite (transform_step _ _ _ D) in H.
  pose proof (decode_width _ _ D) as W. pose proof (skipn_shorter (r_width r) (a :: s) W ltac:(discriminate)) as N.
  destruct (decode_cases _ _ D) as [->|(u&Eu&Es&Eb&Ec&Er&_)].
  - change (bad rune_error) with true in H. cbn [andb] in H. destruct (full_rune (a :: s)) eqn:F; cbn [negb] in H.
    + cbn in H. discriminate H.
    + injection H as <- <-. exists []. split; [|reflexivity]. split; [constructor|]. split; [reflexivity|]. right. now apply full_unfinished.
  - rewrite Eb in H. cbn [andb] in H. destruct (r_code r <=? 255) eqn:C; [|discriminate H].
    destruct (transform (skipn (r_width r) (a :: s))) as [[o p]|] eqn:T; [|discriminate H]. injection H as <- <-.
    apply (IH _ N _ eq_refl) in T as (cps&(L&E&T)&->). exists (r_code r :: cps). split; [|reflexivity].
    split; [constructor; [unfold latin1_char; lia|exact L]|]. split; [|exact T].
    cbn [string_of flat_map]. rewrite <- app_assoc. fold (string_of cps). rewrite <- E, Es, Eu. f_equal. rewrite <- Ec. apply utf8_char_enc.
Qed.

(** ** Pieces *)
Lemma body_prefix x y cps tail : latin1_body (x ++ y) cps tail -> exists cps' tail', latin1_body x cps' tail'.
Proof.
  intros (L&E&T). revert x E. induction L as [|cp cps H _ IH]; intros x E.
  - cbn [string_of flat_map app] in E. exists [], x. split; [constructor|]. split; [reflexivity|].
    destruct x as [|a x]; [now left|]. right. split; [discriminate|]. destruct T as [->|(N&cp&rest&U&R&E2)]; [discriminate E|].
    exists cp, (y ++ rest). split; [exact U|]. split; [destruct y; [exact R|discriminate]|]. rewrite E2, <- E, app_assoc. reflexivity.
  - cbn [string_of flat_map] in E. rewrite <- app_assoc in E. fold (string_of cps) in E.
    destruct (Nat.le_gt_cases (List.length (utf8_enc cp)) (List.length x)) as [G|G].
    + assert (K : exists z, x = utf8_enc cp ++ z).
      { exists (skipn (List.length (utf8_enc cp)) x). rewrite <- (firstn_skipn (List.length (utf8_enc cp)) x) at 1. f_equal.
        apply (f_equal (firstn (List.length (utf8_enc cp)))) in E. rewrite !firstn_app in E. rewrite Nat.sub_diag in E. cbn [firstn] in E. rewrite app_nil_r, firstn_all in E.
        replace (List.length (utf8_enc cp) - List.length x)%nat with 0%nat in E by lia. cbn [firstn] in E. now rewrite app_nil_r in E. }
      destruct K as (z&->). rewrite <- app_assoc in E. apply app_inv_head in E. destruct (IH z E) as (cps'&tail'&L'&->&T').
      exists (cp :: cps'), tail'. split; [constructor; assumption|]. split; [cbn [string_of flat_map]; now rewrite <- app_assoc|exact T'].
    + exists [], x. split; [constructor|]. split; [reflexivity|]. destruct x as [|a x]; [now left|]. right. split; [discriminate|].
      exists cp, (skipn (List.length (a :: x)) (utf8_enc cp)). split; [unfold latin1_char in H; unfold unicode; lia|]. split.
      * intro K. apply (f_equal (@List.length _)) in K. rewrite skipn_length in K. cbn [List.length] in *. lia.
      * rewrite <- (firstn_skipn (List.length (a :: x)) (utf8_enc cp)) at 1. f_equal.
        apply (f_equal (firstn (List.length (a :: x)))) in E. rewrite !firstn_app in E. rewrite Nat.sub_diag, firstn_all in E. cbn [firstn] in E. rewrite app_nil_r in E.
        replace (List.length (a :: x) - List.length (utf8_enc cp))%nat with 0%nat in E by lia. cbn [firstn] in E. rewrite app_nil_r in E. symmetry. exact E.
Qed.
Lemma string_of_app a b : string_of (a ++ b) = string_of a ++ string_of b.
Proof. apply flat_map_app. Qed.
Lemma write_transform w c : latin1_write w c = match transform (lw_pending w ++ c) with Some (o, p) => Some (mkLatin1 p (lw_out w ++ o)) | None => None end.
Proof. reflexivity. Qed.

(** What is written after some pieces is what one piece would have given. *)
Lemma copy_some chunks : forall w w' before_ cps, latin1_body before_ cps (lw_pending w) -> lw_out w = map byte_of_Z cps ->
  latin1_copy w chunks = Some w' -> exists cps', latin1_body (before_ ++ List.concat chunks) cps' (lw_pending w') /\ lw_out w' = map byte_of_Z cps'.
Proof.
  induction chunks as [|c chunks IH]; intros w w' b cps L O H; cbn [latin1_copy List.concat] in *.
  - injection H as <-. exists cps. rewrite app_nil_r. auto.
  - rewrite write_transform in H. destruct (transform (lw_pending w ++ c)) as [[o p]|] eqn:T; [|discriminate H].
    apply transform_inv in T as (cps2&(L2&E2&T2)&->). destruct L as (L1&E1&T1).
    rewrite app_assoc. apply (IH _ _ (b ++ c) (cps ++ cps2)) in H; [exact H| |cbn [lw_out]; rewrite O, map_app; reflexivity].
    split; [apply Forall_app; auto|]. cbn [lw_pending]. split; [|exact T2]. rewrite E1, string_of_app, <- !app_assoc. f_equal. exact E2.
Qed.
Lemma copy_none chunks : forall w before_ cps, latin1_body before_ cps (lw_pending w) ->
  latin1_copy w chunks = None -> ~ exists cps' tail', latin1_body (before_ ++ List.concat chunks) cps' tail'.
Proof.
  induction chunks as [|c chunks IH]; intros w b cps L H; cbn [latin1_copy List.concat] in *; [discriminate H|].
  rewrite write_transform in H. destruct L as (L1&E1&T1). destruct (transform (lw_pending w ++ c)) as [[o p]|] eqn:T.
  - apply transform_inv in T as (cps2&(L2&E2&T2)&->). rewrite app_assoc. refine (IH _ _ (cps ++ cps2) _ H).
    split; [apply Forall_app; auto|]. cbn [lw_pending]. split; [|exact T2]. rewrite E1, string_of_app, <- !app_assoc. f_equal. exact E2.
  - intros (cps'&tail'&K). rewrite app_assoc in K. apply body_prefix in K as (cps2&tail2&K).
    (* the first part of the decomposition is that of [b] *)
    assert (G : transform (b ++ c) = None).
    { clear K. subst b. induction L1 as [|cp cps H1 _ IHc]; [exact T|]. unfold latin1_char in H1. cbn [string_of flat_map]. rewrite <- !app_assoc. fold (string_of cps). rewrite <- app_assoc in IHc.
      destruct (decode_enc cp (string_of cps ++ lw_pending w ++ c)) as (r&D&C&S&Bd); [unfold unicode; lia|].
      destruct (utf8_enc cp ++ string_of cps ++ lw_pending w ++ c) as [|a t] eqn:E; [discriminate D|].
      rewrite (transform_step _ _ _ D), Bd, S, C, IHc. cbn [andb]. replace (cp <=? 255) with true by lia. reflexivity. }
    apply transform_body in K. congruence.
Qed.
