(** Lemmas about marks, references, balances and transactions of MT940. *)
From Verif Require Import Base BaseFacts Lexer_Model Codec_Model Codec_Spec Codec_Proofs Wire_Model Swift_Model Swift_Spec
  Mt940_Model Mt940_Spec Mt940_Proofs Mt940_Facts.
From Coq Require Import Lia ZifyBool ZifyNat ZifyN.
Open Scope Z_scope.

(** ** References *)
Lemma skipn_plus {A} : forall b a (s : list A), skipn a (skipn b s) = skipn (b + a) s.
Proof. induction b as [|b IH]; intros a s; [reflexivity|]. destruct s; [now rewrite !skipn_nil|]. cbn. apply IH. Qed.
Lemma references_no_panic s : text_ok s -> references s <> Panic.
Proof.
  intros H. unfold references. destruct (find_sub inf_sep s) as [a|] eqn:A, (find_sub [slash; slash] s) as [d|] eqn:D; try discriminate.
  apply find_sub_some in A. apply find_sub_some in D. destruct A as (La & Pa & Na), D as (Ld & Pd & Nd).
  apply has_prefix_spec in Pa. apply has_prefix_spec in Pd. destruct Pa as [wa Pa], Pd as [wd Pd].
  assert (Sa : s = firstn a s ++ inf_sep ++ wa) by (rewrite <- Pa; now rewrite firstn_skipn).
  assert (Fa : List.length (firstn a s) = a) by (rewrite firstn_length; cbn in La; lia).
  destruct (Nat.ltb_spec d a) as [L|L].
  - destruct (Nat.ltb_spec a (d + 2)) as [L2|L2]; [exfalso|discriminate].
    assert (E : skipn 1 (skipn d s) = skipn a s) by (rewrite skipn_plus; f_equal; lia).
    rewrite Pd, Pa in E. discriminate.
  - destruct (Nat.ltb_spec d (a + 3)) as [L2|L2]; [exfalso|discriminate].
    assert (E : skipn (d - a) (skipn a s) = skipn d s) by (rewrite skipn_plus; f_equal; lia).
    rewrite Pa, Pd in E. assert (C : (d - a = 0 \/ d - a = 1 \/ d - a = 2)%nat) by lia.
    destruct C as [C|[C|C]]; rewrite C in E; cbn in E; [discriminate|discriminate|].
    apply H. exists (firstn a s), wd. rewrite Sa at 1. f_equal. cbn. cbn in E. injection E as E. now rewrite E.
Qed.
Lemma occurs_firstn sub s j a : (j + List.length sub <= a)%nat -> has_prefix sub (skipn j s) = true -> occurs sub (firstn a s) .
Proof.
  intros L P. apply has_prefix_spec in P. destruct P as [w P].
  exists (firstn j s), (firstn (a - (j + List.length sub)) w).
  rewrite <- (firstn_skipn j s) at 1. rewrite P. destruct (Nat.le_gt_cases j (List.length s)) as [K|K].
  - rewrite firstn_app, firstn_firstn, firstn_length. replace (Nat.min j (List.length s)) with j by lia.
    replace (Nat.min a j) with j by lia. f_equal. rewrite firstn_app. rewrite firstn_all2 by lia. f_equal. f_equal. lia.
  - rewrite skipn_all2 in P by lia. symmetry in P. apply app_eq_nil in P. destruct P as [-> ->].
    rewrite firstn_nil, !app_nil_r. rewrite firstn_firstn. cbn in L. f_equal. lia.
Qed.
Lemma occurs_prefix sub u : occurs sub u -> exists j, (j + List.length sub <= List.length u)%nat /\ forall t, has_prefix sub (skipn j (u ++ t)) = true.
Proof.
  intros (a & b & ->). exists (List.length a). rewrite !app_length. split; [lia|]. intros t.
  rewrite <- app_assoc, skipn_app_len by reflexivity. apply has_prefix_spec. exists (b ++ t). now rewrite <- app_assoc.
Qed.
Lemma references_panic_iff s : references s = Panic <->
  exists u w, s = u ++ crlf ++ B "//" ++ w /\ ~ occurs (B "//") u /\ ~ occurs (crlf ++ B "/") u.
Proof.
  split.
  - unfold references. destruct (find_sub inf_sep s) as [a|] eqn:A, (find_sub [slash; slash] s) as [d|] eqn:D; try discriminate.
    apply find_sub_some in A. apply find_sub_some in D. destruct A as (La & Pa & Na), D as (Ld & Pd & Nd).
    apply has_prefix_spec in Pa. apply has_prefix_spec in Pd. destruct Pa as [wa Pa], Pd as [wd Pd].
    assert (Sa : s = firstn a s ++ inf_sep ++ wa) by (rewrite <- Pa; now rewrite firstn_skipn).
    assert (Fa : List.length (firstn a s) = a) by (rewrite firstn_length; cbn in La; lia).
    destruct (Nat.ltb_spec d a) as [L|L].
    + destruct (Nat.ltb_spec a (d + 2)) as [L2|L2]; [exfalso|discriminate].
      assert (E : skipn 1 (skipn d s) = skipn a s) by (rewrite skipn_plus; f_equal; lia).
      rewrite Pd, Pa in E. discriminate.
    + destruct (Nat.ltb_spec d (a + 3)) as [L2|L2]; [|discriminate]. intros _.
      assert (E : skipn (d - a) (skipn a s) = skipn d s) by (rewrite skipn_plus; f_equal; lia).
      rewrite Pa, Pd in E. assert (C : (d - a = 0 \/ d - a = 1 \/ d - a = 2)%nat) by lia.
      destruct C as [C|[C|C]]; rewrite C in E; cbn in E; [discriminate|discriminate|].
      exists (firstn a s), wd. split; [rewrite Sa at 1; f_equal; cbn; injection E as E; now rewrite E|].
      split; intros K; apply occurs_prefix in K; destruct K as (j & Lj & Pj); specialize (Pj (inf_sep ++ wa)); rewrite <- Sa in Pj; rewrite Fa in Lj.
      * rewrite Nd in Pj; [discriminate|cbn in Lj; lia].
      * rewrite Na in Pj; [discriminate|cbn in Lj; lia].
  - intros (u & w & -> & H1 & H2). unfold references.
    rewrite (find_sub_skip inf_sep u), (find_sub_skip [slash; slash] u).
    + change (crlf ++ B "//" ++ w) with (inf_sep ++ slash :: w) at 1. rewrite find_sub_here. cbn [option_map].
      assert (find_sub [slash; slash] (crlf ++ B "//" ++ w) = Some 2%nat) as -> by reflexivity. cbn [option_map].
      destruct (Nat.ltb_spec (List.length u + 2) (List.length u + 0)); [lia|].
      destruct (Nat.ltb_spec (List.length u + 2) (List.length u + 0 + 3)); [reflexivity|lia].
    + intros x y -> Hy. destruct (has_prefix _ _) eqn:E; [exfalso|reflexivity]. apply has_prefix_spec in E. destruct E as [z E].
      destruct y as [|y1 [|y2 y]]; [congruence| |].
      * cbn in E. discriminate.
      * cbn in E. injection E as -> -> E. apply H1. now exists x, y.
    + intros x y -> Hy. destruct (has_prefix _ _) eqn:E; [exfalso|reflexivity]. apply has_prefix_spec in E. destruct E as [z E].
      destruct y as [|y1 [|y2 [|y3 y]]]; [congruence| | |].
      * cbn in E. discriminate.
      * cbn in E. discriminate.
      * cbn in E. injection E as -> -> -> E. apply H2. now exists x, y.
Qed.

(** The usual form: reference, "//" and the bank's reference, a new line with "/" and
    additional information. *)
Lemma skip_no_cr u s : ~ In b_cr u -> find_sub inf_sep (u ++ s) = option_map (fun i => (List.length u + i)%nat) (find_sub inf_sep s).
Proof.
  intros H. apply find_sub_skip. intros x y -> Hy. destruct y as [|c y]; [congruence|]. cbn [app has_prefix inf_sep].
  destruct (beq_spec b_cr c) as [<-|]; [|reflexivity]. exfalso. apply H. apply in_or_app. right. now left.
Qed.
Lemma skip_no_slashes u s : ~ occurs (B "//") u -> (u = [] \/ last u b_nul <> slash \/ (forall r, s <> slash :: r)) ->
  find_sub [slash; slash] (u ++ s) = option_map (fun i => (List.length u + i)%nat) (find_sub [slash; slash] s).
Proof.
  intros H L. apply find_sub_skip. intros x y -> Hy. destruct (has_prefix _ _) eqn:E; [exfalso|reflexivity].
  apply has_prefix_spec in E. destruct E as [z E]. destruct y as [|y1 [|y2 y]]; [congruence| |].
  - cbn in E. injection E as -> E. destruct L as [L|[L|L]].
    + now destruct x.
    + apply L. apply last_last.
    + now apply (L z).
  - cbn in E. injection E as -> -> _. apply H. now exists x, y.
Qed.
Lemma ok3 (a a' b b' c c' : bytes) : a = a' -> b = b' -> c = c' -> Ok (a, b, c) = Ok (a', b', c').
Proof. congruence. Qed.
Lemma references_eq r b i :
  ~ In b_cr r -> ~ occurs (B "//") r -> (b <> None -> last r b_nul <> slash) ->
  match b with Some t => ~ In b_cr t | None => match i with Some t => ~ occurs (B "//") (slash :: t) | None => True end end ->
  references (r ++ opt_app (B "//") b ++ opt_app (crlf ++ B "/") i) = Ok (r, or_nothing b, or_nothing i).
Proof.
  intros H1 H2 H3 H4. unfold references.
  destruct b as [b|]; cbn [opt_app or_nothing].
  - rewrite (skip_no_slashes r) by (auto; right; left; now apply H3).
    change ((B "//" ++ b) ++ opt_app (crlf ++ B "/") i) with ([slash; slash] ++ b ++ opt_app (crlf ++ B "/") i).
    rewrite find_sub_here. cbn [option_map].
    replace (r ++ [slash; slash] ++ b ++ opt_app (crlf ++ B "/") i) with ((r ++ [slash; slash] ++ b) ++ opt_app (crlf ++ B "/") i)
      by now rewrite <- !app_assoc.
    rewrite skip_no_cr.
    2:{ intros K. apply in_app_or in K. destruct K as [K|K]; [contradiction|]. cbn in K. destruct K as [K|[K|K]]; [discriminate|discriminate|contradiction]. }
    destruct i as [i|]; cbn [opt_app or_nothing].
    + change ((crlf ++ B "/") ++ i) with (inf_sep ++ i). rewrite find_sub_here. cbn [option_map].
      rewrite !app_length. cbn [List.length].
      destruct (Nat.ltb_spec (List.length r + 0) (List.length r + (2 + List.length b) + 0)); [|lia].
      destruct (Nat.ltb_spec (List.length r + (2 + List.length b) + 0) (List.length r + 0 + 2)); [lia|].
      apply ok3.
      * rewrite <- app_assoc. apply firstn_app_len. lia.
      * replace ((r ++ [slash; slash] ++ b) ++ inf_sep ++ i) with ((r ++ [slash; slash]) ++ b ++ inf_sep ++ i) by now rewrite <- !app_assoc.
        rewrite skipn_app_len by (rewrite app_length; cbn; lia). apply firstn_app_len. lia.
      * replace ((r ++ [slash; slash] ++ b) ++ inf_sep ++ i) with ((r ++ [slash; slash] ++ b ++ inf_sep) ++ i) by now rewrite <- !app_assoc.
        apply skipn_app_len. rewrite !app_length. cbn. lia.
    + cbn [find_sub has_prefix inf_sep option_map]. rewrite app_nil_r. apply ok3; [apply firstn_app_len; lia| |reflexivity].
      rewrite app_assoc. apply skipn_app_len. rewrite app_length. cbn. lia.
  - cbn [app]. rewrite skip_no_cr by exact H1. destruct i as [i|]; cbn [opt_app or_nothing].
    + assert (D : find_sub [slash; slash] (r ++ (crlf ++ B "/") ++ i) = None).
      { rewrite skip_no_slashes; [|exact H2|right; right; discriminate].
        change ((crlf ++ B "/") ++ i) with ([b_cr; b_lf] ++ (slash :: i)). rewrite find_sub_skip.
        - rewrite (proj2 (find_sub_none [slash; slash] _) H4). reflexivity.
        - intros x y E Hy. destruct x as [|? x]; cbn in E; [rewrite <- E; reflexivity|]. injection E as _ E.
          destruct x as [|? x]; cbn in E; [rewrite <- E; reflexivity|]. injection E as _ E. destruct x; [|discriminate]. cbn in E. congruence. }
      rewrite D. change ((crlf ++ B "/") ++ i) with (inf_sep ++ i). rewrite find_sub_here. cbn [option_map].
      apply ok3; [apply firstn_app_len; lia|reflexivity|]. rewrite app_assoc. apply skipn_app_len. rewrite app_length. cbn. lia.
    + rewrite app_nil_r. cbn [find_sub has_prefix inf_sep option_map].
      now rewrite (proj2 (find_sub_none [slash; slash] _) H2).
Qed.

(** ** Amounts *)
Lemma no_comma l : forallb is_digit l = true -> forall c, is_digit c = false -> ~ In c l.
Proof. intros H c Hc K. rewrite forallb_forall in H. rewrite (H _ K) in Hc. discriminate. Qed.
Lemma replace1_eq a b : forall u s, ~ In a u -> replace1 a b (u ++ a :: s) = u ++ b :: s.
Proof.
  induction u as [|x u IH]; intros s H; cbn [app replace1]; [now rewrite beq_refl|].
  assert (beq x a = false) as -> by (apply beq_false; intros ->; apply H; now left).
  now rewrite IH by (intros K; apply H; now right).
Qed.
Lemma amount_of_money {F} (pf : bytes -> option F) m : money_ok m ->
  amount_of pf (money_text m) = match pf (dotted m) with Some x => Ok x | None => Err end.
Proof.
  intros (_ & H & _). unfold amount_of, money_text, dotted.
  change (mo_int m ++ B "," ++ mo_frac m) with (mo_int m ++ b_comma :: mo_frac m).
  rewrite replace1_eq by (apply no_comma; [exact H|reflexivity]). reflexivity.
Qed.

Section Marks.
  Context {F : Type}.
  Variable parse_float : bytes -> option F.
  Variable other_digit : Z -> bool.
  Variable now : Z.

  Definition plain_letter (c : byte) : Prop := (zb c <? 128) = true /\ is_digit c = false.
  Lemma capital_plain k : is_capital k = true -> plain_letter k.
  Proof. unfold is_capital, plain_letter, is_digit. lia. Qed.
  Lemma read_marks_eq : forall a fuel d s acc, Forall plain_letter a -> is_digit d = true -> (List.length a < fuel)%nat ->
    read_marks other_digit fuel (a ++ d :: s) acc = Ok (acc ++ map ascii_rune a, d :: s).
  Proof.
    induction a as [|c a IH]; intros fuel d s acc Ha Hd Hf; (destruct fuel as [|fuel]; [cbn in Hf; lia|]).
    - cbn [app read_marks map]. rewrite decode_ascii, rdigit_ascii, Hd by now apply digit_ascii. now rewrite app_nil_r.
    - inversion Ha as [|? ? [Hc1 Hc2] Ha']; subst. cbn [app read_marks map].
      rewrite decode_ascii, rdigit_ascii, Hc2 by exact Hc1. cbn [r_width ascii_rune skipn].
      rewrite IH; [now rewrite <- app_assoc|exact Ha'|exact Hd|cbn in Hf; lia].
  Qed.
  Lemma mark_letters m : Forall plain_letter (mark_text m).
  Proof. destruct m; repeat (constructor; [split; reflexivity|]); constructor. Qed.
  Lemma mark_nonempty m : exists c t, mark_text m = c :: t /\ plain_letter c.
  Proof. pose proof (mark_letters m) as H. destruct (mark_text m) eqn:E; [destruct m; discriminate|]. inversion H; subst. eauto. Qed.

  (** The text the marks are taken from. *)
  Definition seen_marks (e : entry) : bytes :=
    let all := mark_text (e_mark e) ++ opt_bytes (e_kind e) in
    match e_booking e with Some _ => all | None => tl all end.
  Lemma seen_sign e : bytes_eqb (fst (marks (map ascii_rune (seen_marks e)))) (B "D") = xorb (outgoing (e_mark e)) (sign_lost e).
  Proof.
    unfold seen_marks, sign_lost. destruct (e_booking e), (e_mark e), (e_kind e); try reflexivity; cbn; now destruct (beq b "D").
  Qed.

  Lemma read_transaction_refs id e x : 1000 <= now <= 9999 -> ~ In b_colon id -> entry_head_ok now e -> 
    parse_float (dotted (e_money e)) = Some x ->
    exists mk, read_transaction parse_float other_digit now (b_colon :: id ++ b_colon :: entry_value e) = (do r <- references (e_text e); Ok (mk r)) /\
      forall r1 r2 r3, let t := mk (r1, r2, r3) in
      tt_valuta t = e_valuta e /\
      match e_booking e with None => tt_booking t = None | Some b => exists b', tt_booking t = Some b' /\ (booking_kept (e_valuta e) b <-> b' = b) end /\
      tt_amount t = x /\ bytes_eqb (tt_mark t) (B "D") = xorb (outgoing (e_mark e)) (sign_lost e) /\
      tt_key t = e_key e /\ tt_reference t = r1 /\ tt_bank_reference t = r2 /\ tt_information t = r3 /\
      (tt_mark t, tt_kind t) = marks (map ascii_rune (seen_marks e)).
  Proof.
    intros Hnow Hid (Hv & Hc & Hb & Hk & Hm & Hkey) Hx.
    unfold read_transaction. rewrite tag_elements_eq by exact Hid. cbn [obind snd]. cbv zeta.
    unfold entry_value.
    rewrite (firstn_app_len (yymmdd (e_valuta e))), (skipn_app_len (yymmdd (e_valuta e))) by reflexivity.
    rewrite (proj2 (valuta_iff now (e_valuta e) Hnow Hv) Hc). cbn [obind].
    assert (Hyear : 1000 <= d_year (e_valuta e) <= 9999).
    { unfold this_century in Hc. pose proof (real_bounds _ Hv) as (Y & _ & _). clear - Hc Hnow Y.
      Ltac Zify.zify_post_hook ::= Z.div_mod_to_equations. lia. }
    pose proof Hm as (Hi & Hid1 & Hid2).
    assert (Hkl : Forall plain_letter (opt_bytes (e_kind e))).
    { destruct (e_kind e) as [k|]; cbn [opt_bytes]; constructor; [now apply capital_plain|constructor]. }
    set (tail := B "N" ++ e_key e ++ e_text e).
    assert (Hmoney : exists d ds, money_text (e_money e) ++ tail = d :: ds /\ is_digit d = true).
    { unfold money_text. destruct (mo_int (e_money e)) as [|d ds]; [congruence|]. cbn in Hid1. apply andb_true_iff in Hid1.
      destruct Hid1 as [Hd _]. eexists _, _. split; [reflexivity|exact Hd]. }
    destruct Hmoney as (d & ds & Emoney & Hd).
    assert (Hfin : forall (bk : option date) (acc : bytes), Forall plain_letter acc ->
       exists mk, (do m <- read_marks other_digit (S (List.length (acc ++ money_text (e_money e) ++ tail))) (acc ++ money_text (e_money e) ++ tail) [];
         match read_bytes "N" (snd m) with
         | Some (a, rest) => do x <- amount_of parse_float a; do r <- references (skipn 3 rest);
             (let '(reference, bank_reference, information) := r in
              Ok (mkTransaction (e_valuta e) bk (fst (marks (fst m))) (snd (marks (fst m))) x (firstn 3 rest) reference bank_reference information))
         | None => Err end) = (do r <- references (e_text e); Ok (mk r)) /\ forall r1 r2 r3, let t := mk (r1, r2, r3) in tt_valuta t = e_valuta e /\ tt_booking t = bk /\ tt_amount t = x /\
         tt_mark t = fst (marks (map ascii_rune acc)) /\ tt_key t = e_key e /\ tt_reference t = r1 /\ tt_bank_reference t = r2 /\ tt_information t = r3 /\ (tt_mark t, tt_kind t) = marks (map ascii_rune acc)).
    { intros bk acc Hacc. rewrite Emoney. rewrite read_marks_eq; [|exact Hacc|exact Hd|rewrite app_length; lia].
      cbn [obind app snd fst]. rewrite <- Emoney. unfold tail. change (B "N" ++ e_key e ++ e_text e) with ("N"%byte :: e_key e ++ e_text e).
      rewrite read_bytes_eq.
      - rewrite amount_of_money, Hx by exact Hm. cbn [obind].
        rewrite (skipn_app_len (e_key e)), (firstn_app_len (e_key e)) by (symmetry; exact Hkey).
        exists (fun r : bytes * bytes * bytes => let '(r1, r2, r3) := r in
          mkTransaction (e_valuta e) bk (fst (marks (map ascii_rune acc))) (snd (marks (map ascii_rune acc))) x (e_key e) r1 r2 r3).
        split; [destruct (references (e_text e)) as [[[r1 r2] r3]| |]; reflexivity|]. intros r1 r2 r3. cbn [tt_valuta tt_booking tt_amount tt_mark tt_kind tt_key tt_reference tt_bank_reference tt_information]. repeat split; try reflexivity. now destruct (marks (map ascii_rune acc)).
      - unfold money_text. intros K. apply in_app_or in K. destruct K as [K|K]; [exact (no_comma _ Hid1 "N"%byte eq_refl K)|].
        destruct K as [K|K]; [discriminate|]. exact (no_comma _ Hid2 "N"%byte eq_refl K). }
    pose proof (seen_sign e) as Hsign. unfold seen_marks in Hsign |- *.
    destruct (e_booking e) as [b|] eqn:Eb.
    - cbn [app]. rewrite booking_value by assumption. cbv zeta. cbn [obind fst snd].
      set (b' := if 1 <? _ then _ else _).
      destruct (Hfin (Some b') (mark_text (e_mark e) ++ opt_bytes (e_kind e))) as (mk & E1 & E2).
      { apply Forall_app. split; [apply mark_letters|exact Hkl]. }
      rewrite <- app_assoc in E1. fold tail. exists mk. split; [exact E1|]. intros r1 r2 r3. cbv zeta. destruct (E2 r1 r2 r3) as (E3 & E4 & E5 & E6 & E7).
      split; [exact E3|]. split; [|rewrite E6 in E7 |- *; auto 10].
      exists b'. split; [exact E4|].
      rewrite <- (booking_iff other_digit (e_valuta e) b []) by assumption. rewrite booking_value by assumption. cbv zeta.
      subst b'. split; intros A; congruence.
    - cbn [app]. destruct (mark_nonempty (e_mark e)) as (c & mt & Em & Hpl). pose proof (mark_letters (e_mark e)) as Hml.
      rewrite Em in *. inversion Hml; subst. cbn [app]. unfold read_booking. destruct Hpl as [P1 P2].
      rewrite decode_ascii, rdigit_ascii, P2 by exact P1. cbn [obind fst snd r_width ascii_rune skipn].
      destruct (Hfin None (mt ++ opt_bytes (e_kind e))) as (mk & E1 & E2).
      { apply Forall_app. split; [assumption|exact Hkl]. }
      rewrite <- app_assoc in E1. fold tail. exists mk. split; [exact E1|]. intros r1 r2 r3. cbv zeta. destruct (E2 r1 r2 r3) as (E3 & E4 & E5 & E6 & E7).
      split; [exact E3|]. split; [exact E4|].
      cbn [app tl] in Hsign |- *. rewrite E6 in E7 |- *. auto 10.
  Qed.

  Lemma references_no_err s : references s <> Err.
  Proof.
    unfold references. intros R. repeat match type of R with context [match ?x with _ => _ end] => destruct x end; discriminate.
  Qed.
  Lemma read_transaction_eq id e x : 1000 <= now <= 9999 -> ~ In b_colon id -> entry_ok now e -> 
    parse_float (dotted (e_money e)) = Some x ->
    exists t, read_transaction parse_float other_digit now (b_colon :: id ++ b_colon :: entry_value e) = Ok t /\
      tt_valuta t = e_valuta e /\
      match e_booking e with None => tt_booking t = None | Some b => exists b', tt_booking t = Some b' /\ (booking_kept (e_valuta e) b <-> b' = b) end /\
      tt_amount t = x /\ bytes_eqb (tt_mark t) (B "D") = xorb (outgoing (e_mark e)) (sign_lost e) /\
      tt_key t = e_key e /\ references (e_text e) = Ok (tt_reference t, tt_bank_reference t, tt_information t) /\
      (tt_mark t, tt_kind t) = marks (map ascii_rune (seen_marks e)).
  Proof.
    intros Hnow Hid (He & Htext) Hx. destruct (read_transaction_refs id e x Hnow Hid He Hx) as (mk & E & H).
    pose proof (references_no_panic _ Htext) as Hp. pose proof (references_no_err (e_text e)) as Hq.
    destruct (references (e_text e)) as [[[r1 r2] r3]| |]; [|congruence|congruence].
    exists (mk (r1, r2, r3)). split; [exact E|]. destruct (H r1 r2 r3) as (A1 & A2 & A3 & A4 & A5 & -> & -> & -> & A9).
    auto 8.
  Qed.

  (** ** Balances *)
  Lemma read_balance_eq id b x : 1000 <= now <= 9999 -> ~ In b_colon id -> balance_ok now b -> parse_float (dotted (b_money b)) = Some x ->
    read_balance parse_float now (b_colon :: id ++ b_colon :: balance_value b) =
    Ok (mkBalance (if b_debit b then B "D" else B "C") (b_date b) (b_currency b) x).
  Proof.
    intros Hnow Hid (Hd & Hc & Hl & Hm) Hx. unfold read_balance. rewrite tag_elements_eq by exact Hid. cbn [obind snd]. cbv zeta.
    
    assert (Ev : exists mk : bytes, mk = (if b_debit b then B "D" else B "C") /\ List.length mk = 1%nat /\
      balance_value b = mk ++ yymmdd (b_date b) ++ b_currency b ++ money_text (b_money b)).
    { eexists. split; [reflexivity|]. split; [now destruct (b_debit b)|reflexivity]. }
    destruct Ev as (mk & Emk & Lm & Ev). rewrite Ev, <- Emk. clear Ev Emk.
    rewrite (skipn_app_len mk) by now rewrite Lm. rewrite (firstn_app_len (yymmdd (b_date b))) by reflexivity.
    rewrite (proj2 (valuta_iff now (b_date b) Hnow Hd) Hc). cbn [obind].
    assert (E10 : skipn 10 (mk ++ yymmdd (b_date b) ++ b_currency b ++ money_text (b_money b)) = money_text (b_money b)).
    { replace (mk ++ yymmdd (b_date b) ++ b_currency b ++ money_text (b_money b))
        with ((mk ++ yymmdd (b_date b) ++ b_currency b) ++ money_text (b_money b)) by now rewrite <- !app_assoc.
      apply skipn_app_len. rewrite !app_length, Lm, Hl. reflexivity. }
    rewrite E10.
    rewrite amount_of_money, Hx by exact Hm. cbn [obind]. do 2 f_equal.
    - now rewrite (firstn_app_len mk) by now rewrite Lm.
    - replace (mk ++ yymmdd (b_date b) ++ b_currency b ++ money_text (b_money b))
        with ((mk ++ yymmdd (b_date b)) ++ b_currency b ++ money_text (b_money b)) by now rewrite <- !app_assoc.
      rewrite (skipn_app_len (mk ++ yymmdd (b_date b))) by (rewrite !app_length, Lm; reflexivity).
      now rewrite (firstn_app_len (b_currency b)) by now rewrite Hl.
  Qed.
End Marks.
