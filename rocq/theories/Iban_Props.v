(** * C31-C33, C41, C42: IBANs *)
From Coq Require Import Lia ZifyBool ZifyNat ZifyN.
From Verif Require Import Base BaseFacts Lexer_Model Iban_Model Iban_Spec Iban_Proofs Iban_Facts.
Open Scope Z_scope.
Ltac Zify.zify_post_hook ::= Z.div_mod_to_equations.

(** ** C31: generated IBANs are valid *)
(** For a country and an account number of letters and digits, New succeeds exactly if
    the lengths are right, and the result is the country, the two check digits of
    ISO 13616 and the account number, in upper case. *)
Theorem C31_new : forall cc bban i, forallb alnum cc = true -> forallb alnum bban = true ->
  (new_iban cc bban = Ok i <->
   List.length cc = 2%nat /\ 1 <= len bban <= max_length (map up cc) - 4 /\
   i = map up cc ++ itoa_pad 2 (check_number cc bban) ++ map up bban).
Proof. exact new_alnum. Qed.
Print Assumptions C31_new.
Example C31_new_example : new_iban (B "gb") (B "CiTI18500811417983") = Ok (B "GB11CITI18500811417983").
Proof. vm_compute. reflexivity. Qed.

(** Whatever the texts are: what New returns passes Valid, From gives it back, and it is
    not too long; except for account numbers that start with "-" and for two special
    two-byte country codes (the letters U+0131 and U+017F in UTF-8). *)
Theorem C31_valid : forall cc bban i, new_iban cc bban = Ok i ->
  (forall r, bban <> b_minus :: r) -> cc <> ["196"; "177"]%byte -> cc <> ["197"; "191"]%byte ->
  valid i = Ok true /\ from i = Ok i /\ is_valid i = Ok true /\ len i <= 34.
Proof.
  intros cc bban i H N1 N2 N3. destruct (new_valid cc bban i H N2 N3 N1) as [V [F L]].
  split; [exact V|]. split; [exact F|]. split; [|exact L]. unfold is_valid. rewrite F. exact V.
Qed.
Print Assumptions C31_valid.
Example C31_valid_example :
  new_iban (B "DE") (B "100500000024290661") = Ok (B "DE02100500000024290661") /\ (forall r, B "100500000024290661" <> b_minus :: r).
Proof. split; [vm_compute; reflexivity|discriminate]. Qed.
(** Both exceptions are real. *)
Theorem C31_minus_refuted : exists i, new_iban (B "DE") (B "-5") = Ok i /\ valid i = Ok false.
Proof. eexists. split; vm_compute; reflexivity. Qed.
Theorem C31_country_refuted : exists i, new_iban ["196"; "177"]%byte (B "10050000") = Ok i /\ valid i = Ok false.
Proof. eexists. split; vm_compute; reflexivity. Qed.
Print Assumptions C31_minus_refuted.
Print Assumptions C31_country_refuted.
(** A leading "+" is taken for part of the account number. *)
Example C31_plus : exists i, new_iban (B "DE") (B "+5") = Ok i /\ i = B "DE95+5" /\ valid i = Ok true.
Proof. eexists. split; [vm_compute; reflexivity|]. split; [reflexivity|vm_compute; reflexivity]. Qed.

Lemma digit_alnum l : forallb is_digit l = true -> forallb alnum l = true.
Proof. intros H. rewrite forallb_forall in *. intros x I. unfold alnum. rewrite (H x I). reflexivity. Qed.
Lemma digit_up l : forallb is_digit l = true -> map up l = l.
Proof.
  intros H. apply plain_alnum. unfold plain. rewrite forallb_forall in *. intros x I. rewrite (H x I). reflexivity.
Qed.
(** NewGerman for numbers: never more than 18 digits, one zero in front of accounts of
    nine digits, and always a valid IBAN. *)
Theorem C31_german : forall bank account i, forallb is_digit bank = true -> forallb is_digit account = true ->
  (new_german bank account = Ok i <->
   let full := bank ++ (if len account =? 9 then b_zero :: account else account) in
   1 <= len full <= 18 /\ i = B "DE" ++ itoa_pad 2 (check_number (B "DE") full) ++ full) /\
  (new_german bank account = Ok i -> valid i = Ok true /\ from i = Ok i).
Proof.
  intros bank account i Hb Ha. cbv zeta. unfold new_german. set (full := bank ++ (if len account =? 9 then b_zero :: account else account)).
  assert (Hf : forallb is_digit full = true).
  { unfold full. rewrite forallb_app, Hb. destruct (len account =? 9); [cbn [forallb]|]; rewrite Ha; reflexivity. }
  split.
  - rewrite new_alnum by (reflexivity || apply digit_alnum; exact Hf). rewrite (digit_up full Hf). change (map up (B "DE")) with (B "DE").
    change (max_length (B "DE") - 4) with 18. split; [intros [_ [H1 H2]]; auto|intros [H1 H2]; auto].
  - intros H. apply new_valid in H; [tauto|discriminate|discriminate|]. intros r E. rewrite E in Hf. discriminate.
Qed.
Print Assumptions C31_german.
Example C31_german_example : new_german (B "10050000") (B "024290661") = Ok (B "DE02100500000024290661").
Proof. vm_compute. reflexivity. Qed.

(** ** C32: check digits are unique *)
(** From accepts exactly one number in the place of the check digits, the one of
    ISO 13616, written with two digits. *)
Theorem C32_from : forall s i, forallb alnum s = true -> 4 <= len s ->
  (from s = Ok i <->
   let cc := firstn 2 s in let pp := firstn 2 (skipn 2 s) in let bban := skipn 4 s in
   1 <= len bban <= max_length (map up cc) - 4 /\ forallb is_digit pp = true /\
   Z.of_N (dec_val pp) = check_number cc bban /\ i = map up s).
Proof.
  intros s i H L. destruct s as [|a [|b [|c [|d r]]]]; try (rewrite len_list in L; cbn [List.length] in L; lia). clear L.
  cbv zeta. cbn [firstn skipn]. unfold from. destruct (slice_parts a b c d r) as [S1 [S2 S3]]. rewrite S1, S2, S3. cbn [obind].
  assert (HH : forallb alnum [a; b] = true /\ forallb alnum [c; d] = true /\ forallb alnum r = true).
  { cbn [forallb] in H |- *. repeat (apply andb_prop in H; destruct H as [? H]). rewrite !andb_true_r. repeat split; try assumption; apply andb_true_intro; auto. }
  destruct HH as [Hab [Hcd Hr]].
  assert (Hp : 0 <= check_number [a; b] r <= 99) by (unfold check_number; lia).
  destruct (pp_spec _ Hp) as [x [y [E1 [E2 [E3 E4]]]]].
  assert (U : is_digit c = true -> is_digit d = true -> map up [c; d] = [c; d]).
  { intros K1 K2. apply digit_up. cbn [forallb]. rewrite K1, K2. reflexivity. }
  split.
  - intros F. destruct (new_iban [a; b] r) as [i'| |] eqn:EN; try discriminate. cbn [obind] in F.
    apply new_alnum in EN; try assumption. destruct EN as [_ [EL ->]]. rewrite E1 in F. cbn [map app] in F.
    destruct (slice_parts (up a) (up b) x y (map up r)) as [T1 [T2 T3]]. unfold proof_number in F. rewrite T2 in F. cbn [obind] in F.
    destruct (bytes_eqb_spec [c; d] [x; y]) as [E|]; [|discriminate]. injection E as -> ->. injection F as <-.
    split; [exact EL|]. split; [cbn [forallb]; rewrite E2, E3; reflexivity|]. split; [exact E4|]. cbn [map]. injection (U E2 E3) as U1 U2. rewrite U1, U2. reflexivity.
  - intros [HL [HD [HV ->]]].
    assert (EN : new_iban [a; b] r = Ok (up a :: up b :: x :: y :: map up r)).
    { apply new_alnum; try assumption. split; [reflexivity|]. split; [exact HL|]. rewrite E1. reflexivity. }
    rewrite EN. cbn [obind]. destruct (slice_parts (up a) (up b) x y (map up r)) as [T1 [T2 T3]]. unfold proof_number. rewrite T2. cbn [obind].
    cbn [forallb] in HD. apply andb_prop in HD. destruct HD as [D1 D2]. rewrite andb_true_r in D2.
    assert (EQ : [c; d] = [x; y]).
    { rewrite <- E4 in HV. unfold dec_val in HV. cbn [fold_left] in HV.
      destruct (is_digit_val c D1) as [C1 C2], (is_digit_val d D2) as [C3 C4], (is_digit_val x E2) as [C5 C6], (is_digit_val y E3) as [C7 C8].
      assert (digit_val c = digit_val x) by lia. assert (digit_val d = digit_val y) by lia. congruence. }
    rewrite EQ, bytes_eqb_refl. injection EQ as -> ->. cbn [map]. injection (U E2 E3) as U1 U2. rewrite U1, U2. reflexivity.
Qed.
Print Assumptions C32_from.
Example C32_from_example : from (B "gb11CiTI18500811417983") = Ok (B "GB11CITI18500811417983") /\
  check_number (B "gb") (B "CiTI18500811417983") = 11.
Proof. split; vm_compute; reflexivity. Qed.
Theorem C32_unique : forall cc bban p q i j, List.length cc = 2%nat -> List.length p = 2%nat -> List.length q = 2%nat ->
  from (cc ++ p ++ bban) = Ok i -> from (cc ++ q ++ bban) = Ok j -> p = q /\ i = j.
Proof.
  intros cc bban p q i j Hc Hp Hq. destruct cc as [|c1 [|c2 [|? ?]]]; try discriminate. destruct p as [|p1 [|p2 [|? ?]]]; try discriminate. destruct q as [|q1 [|q2 [|? ?]]]; try discriminate.
  cbn [app]. unfold from. destruct (slice_parts c1 c2 p1 p2 bban) as [S1 [S2 S3]]. destruct (slice_parts c1 c2 q1 q2 bban) as [T1 [T2 T3]].
  rewrite S1, S2, S3, T1, T2, T3. cbn [obind]. destruct (new_iban [c1; c2] bban) as [i'| |]; try discriminate. cbn [obind].
  destruct (proof_number i') as [pn| |]; try discriminate. cbn [obind].
  destruct (bytes_eqb_spec [p1; p2] pn); [|discriminate]. destruct (bytes_eqb_spec [q1; q2] pn); [|discriminate]. split; congruence.
Qed.
Print Assumptions C32_unique.
(** What From accepts passes Valid, with the exceptions of C31. *)
Theorem C32_accepted_is_valid : forall s i, from s = Ok i ->
  (forall r, skipn 4 s <> b_minus :: r) -> firstn 2 s <> ["196"; "177"]%byte -> firstn 2 s <> ["197"; "191"]%byte ->
  valid i = Ok true.
Proof.
  intros s i H N1 N2 N3. unfold from in H. destruct (slice 0 2 s) as [cc| |] eqn:E1; try discriminate. cbn [obind] in H.
  destruct (slice 2 4 s) as [pp| |] eqn:E2; try discriminate. cbn [obind] in H. destruct (slice_from 4 s) as [bban| |] eqn:E3; try discriminate. cbn [obind] in H.
  destruct (new_iban cc bban) as [i'| |] eqn:EN; try discriminate. cbn [obind] in H. destruct (proof_number i') as [p| |]; try discriminate. cbn [obind] in H.
  destruct (bytes_eqb pp p); [|discriminate]. injection H as <-.
  unfold slice in E1. destruct (len s <? 2); [discriminate|]. injection E1 as <-. unfold slice_from in E3. destruct (len s <? 4); [discriminate|]. injection E3 as <-.
  apply new_valid in EN; [tauto|exact N2|exact N3|exact N1].
Qed.
Print Assumptions C32_accepted_is_valid.
Example C32_accepted_example : exists i, from (B "DE02100500000024290661") = Ok i.
Proof. eexists. vm_compute. reflexivity. Qed.
Theorem C32_minus_refuted : exists i, from (B "DE04-5") = Ok i /\ valid i = Ok false.
Proof. eexists. split; vm_compute; reflexivity. Qed.
Print Assumptions C32_minus_refuted.
(** Valid itself means the check of ISO 7064, for IBANs of letters and digits. *)
Theorem C32_valid_meaning : forall i, forallb alnum i = true -> 4 <= len i ->
  exists r, valid i = Ok r /\ (r = true <-> len i <= 34 /\ forallb is_digit (firstn 2 (skipn 2 i)) = true /\ check97 i).
Proof. exact valid_alnum. Qed.
Print Assumptions C32_valid_meaning.
(** So Valid takes two different check numbers for the same account if they differ by 97. *)
Theorem C32_valid_not_unique_refuted :
  valid (B "DE01000000000000000048") = Ok true /\ valid (B "DE98000000000000000048") = Ok true.
Proof. split; vm_compute; reflexivity. Qed.
(** From panics exactly on inputs of less than four bytes. *)
Theorem C32_from_panics : forall s, from s = Panic <-> len s < 4.
Proof.
  intros s. unfold from, slice, slice_from. destruct (Z.ltb_spec (len s) 2); [cbn [obind]; split; [lia|reflexivity]|].
  destruct (Z.ltb_spec (len s) 4); [cbn [obind]; split; [lia|reflexivity]|]. cbn [obind]. split; [|lia]. intros H1. exfalso.
  match type of H1 with context [new_iban ?x ?y] => destruct (new_iban x y) as [i| |] eqn:EN end; try discriminate.
  - cbn [obind] in H1. apply new_iff in EN. destruct EN as [LC [NB [_ [n [_ ->]]]]].
    assert (Hp : 0 <= 98 - n mod 97 <= 99) by lia. destruct (pp_spec _ Hp) as [x [y [E1 _]]].
    unfold proof_number, slice in H1. rewrite E1 in H1.
    match type of H1 with context [len (upper ?c ++ [x; y] ++ upper ?u)] =>
      assert (L1 : upper c <> []) by (apply upper_nonempty; intros K; rewrite K in LC; discriminate); assert (L2 : upper u <> []) by (apply upper_nonempty; exact NB);
      destruct (Z.ltb_spec (len (upper c ++ [x; y] ++ upper u)) 4) as [L|L] end.
    + rewrite len_list, !app_length in L. cbn [List.length] in L.
      destruct (upper _) as [|? ?] in L1, L |- *; [congruence|]. destruct (upper (skipn _ _)) as [|? ?] in L2, L |- *; [congruence|]. cbn [List.length] in L. lia.
    + cbn [obind] in H1. destruct (bytes_eqb _ _); discriminate.
  - unfold new_iban in EN. destruct (negb _); [discriminate|]. destruct (_ =? 0); [discriminate|]. destruct (_ <? _); [discriminate|]. destruct (set_string _); discriminate.
Qed.
Print Assumptions C32_from_panics.
(** IsValid of letters and digits: true exactly for what ISO 13616 makes of country and account;
    in general it is true of what From accepts, with the exceptions of C31, false of what From
    refuses, and it panics where From does. *)
Theorem C32_is_valid : forall s,
  (forallb alnum s = true -> 4 <= len s -> exists b, is_valid s = Ok b /\ (b = true <->
     let cc := firstn 2 s in let pp := firstn 2 (skipn 2 s) in let bban := skipn 4 s in
     1 <= len bban <= max_length (map up cc) - 4 /\ forallb is_digit pp = true /\ Z.of_N (dec_val pp) = check_number cc bban)) /\
  (from s = Err -> is_valid s = Ok false) /\ (len s < 4 -> is_valid s = Panic) /\
  (forall i, from s = Ok i -> (forall r, skipn 4 s <> b_minus :: r) -> firstn 2 s <> ["196"; "177"]%byte ->
     firstn 2 s <> ["197"; "191"]%byte -> is_valid s = Ok true).
Proof.
  intros s. assert (A : forall i, from s = Ok i -> (forall r, skipn 4 s <> b_minus :: r) -> firstn 2 s <> ["196"; "177"]%byte ->
     firstn 2 s <> ["197"; "191"]%byte -> is_valid s = Ok true).
  { intros i F N1 N2 N3. unfold is_valid. rewrite F. exact (C32_accepted_is_valid s i F N1 N2 N3). }
  split; [|split; [|split; [|exact A]]].
  - intros H L. pose proof (C32_from s) as C. destruct (from s) as [i| |] eqn:F.
    + exists true. split.
      * apply (A i eq_refl).
        -- intros r E. assert (K : forallb alnum (skipn 4 s) = true) by (rewrite <- (firstn_skipn 4 s), forallb_app in H; apply andb_prop in H; tauto).
           rewrite E in K. discriminate.
        -- intros E. rewrite <- (firstn_skipn 2 s), E, forallb_app in H. discriminate.
        -- intros E. rewrite <- (firstn_skipn 2 s), E, forallb_app in H. discriminate.
      * split; [intros _|reflexivity]. destruct (proj1 (C i H L) eq_refl) as (X1&X2&X3&_). auto.
    + exists false. split; [unfold is_valid; now rewrite F|]. split; [discriminate|]. intros (X1&X2&X3).
      assert (K : @Err bytes = Ok (map up s)) by (apply (C (map up s) H L); auto). discriminate.
    + apply C32_from_panics in F. lia.
  - intros E. unfold is_valid. now rewrite E.
  - intros E. unfold is_valid. now rewrite (proj2 (C32_from_panics s) E).
Qed.
Print Assumptions C32_is_valid.
Example C32_is_valid_example : is_valid (B "DE02100500000024290661") = Ok true /\ is_valid (B "DE03100500000024290661") = Ok false.
Proof. split; vm_compute; reflexivity. Qed.

(** ** C33: typing errors *)
Lemma check_position (a b : bytes) : exists u v, forall y, skipn 4 (a ++ y :: b) ++ firstn 4 (a ++ y :: b) = u ++ y :: v.
Proof.
  destruct (Compare_dec.le_lt_dec 4 (List.length a)) as [L|L].
  - exists (skipn 4 a), (b ++ firstn 4 a). intros y. rewrite skipn_app, firstn_app.
    replace (4 - List.length a)%nat with 0%nat by lia. cbn [skipn firstn]. rewrite app_nil_r, <- app_assoc. reflexivity.
  - exists (skipn (3 - List.length a) b ++ a), (firstn (3 - List.length a) b). intros y.
    rewrite skipn_app, firstn_app. rewrite (skipn_all2 a) by lia. rewrite (firstn_all2 a) by lia.
    replace (4 - List.length a)%nat with (S (3 - List.length a)) by lia. cbn [skipn firstn app]. rewrite <- app_assoc. reflexivity.
Qed.

(** One digit replaced by another digit, or one letter by another letter, anywhere in a
    valid IBAN: rejected.  Upper and lower case letters count as the same. *)
Theorem C33_substitution : forall a x y b,
  forallb alnum (a ++ x :: b) = true -> alnum y = true -> 4 <= len (a ++ x :: b) ->
  is_digit x = is_digit y -> value x <> value y ->
  valid (a ++ x :: b) = Ok true -> valid (a ++ y :: b) = Ok false.
Proof.
  intros a x y b H Hy L Hd Hv V.
  assert (Hx : alnum x = true) by (rewrite forallb_app in H; cbn [forallb] in H; apply andb_prop in H; destruct H as [_ H]; apply andb_prop in H; apply H).
  assert (H' : forallb alnum (a ++ y :: b) = true).
  { rewrite forallb_app in *. cbn [forallb] in *. apply andb_prop in H. destruct H as [H1 H2]. apply andb_prop in H2. destruct H2 as [_ H2]. rewrite H1, Hy, H2. reflexivity. }
  assert (L' : 4 <= len (a ++ y :: b)) by (rewrite len_list, app_length in *; cbn [List.length] in *; exact L).
  destruct (valid_alnum _ H L) as [r [V1 R1]]. destruct (valid_alnum _ H' L') as [r' [V2 R2]].
  rewrite V in V1. injection V1 as <-. rewrite V2. f_equal. destruct r'; [|reflexivity]. exfalso.
  destruct (proj1 R1 eq_refl) as [_ [_ C1]]. destruct (proj1 R2 eq_refl) as [_ [_ C2]]. unfold check97 in C1, C2.
  destruct (check_position a b) as [u [v E]]. rewrite E in C1, C2. pose proof (number_diff u x y v Hd) as D.
  assert (Z0 : ((value x - value y) * 10 ^ width v) mod 97 = 0) by (rewrite <- D; clear - C1 C2; lia).
  apply ten_cancel in Z0; [|apply width_nonneg]. destruct (value_range x Hx) as [X _], (value_range y Hy) as [Y _]. lia.
Qed.
Print Assumptions C33_substitution.
Example C33_substitution_example : valid (B "DE02100500000024290661") = Ok true /\ valid (B "DE02100500000024290761") = Ok false.
Proof. split; vm_compute; reflexivity. Qed.

(** Two neighbours in the account part swapped: still accepted exactly if they have the
    same value or are 1 and B, 2 and M or 3 and X. *)
Theorem C33_swap : forall a x y b,
  forallb alnum (a ++ x :: y :: b) = true -> 4 <= len a ->
  valid (a ++ x :: y :: b) = Ok true ->
  exists r, valid (a ++ y :: x :: b) = Ok r /\ (r = true <-> value x = value y \/ blind_pair x y \/ blind_pair y x).
Proof.
  intros a x y b H L V.
  assert (Hxy : alnum x = true /\ alnum y = true /\ forallb alnum a = true /\ forallb alnum b = true).
  { rewrite forallb_app in H. cbn [forallb] in H. repeat match goal with K : _ && _ = true |- _ => apply andb_prop in K; destruct K end. auto. }
  destruct Hxy as [Hx [Hy [Ha Hb]]].
  assert (H' : forallb alnum (a ++ y :: x :: b) = true) by (rewrite forallb_app; cbn [forallb]; rewrite Ha, Hx, Hy, Hb; reflexivity).
  assert (L1 : 4 <= len (a ++ x :: y :: b)) by (rewrite len_list, app_length in *; lia).
  assert (L2 : 4 <= len (a ++ y :: x :: b)) by (rewrite len_list, app_length in *; lia).
  destruct (valid_alnum _ H L1) as [r1 [V1 R1]]. destruct (valid_alnum _ H' L2) as [r2 [V2 R2]].
  rewrite V in V1. injection V1 as <-. exists r2. split; [exact V2|].
  assert (La : (4 <= List.length a)%nat) by (rewrite len_list in L; lia).
  assert (E : forall p q, skipn 4 (a ++ p :: q :: b) ++ firstn 4 (a ++ p :: q :: b) = skipn 4 a ++ p :: q :: (b ++ firstn 4 a)).
  { intros p q. rewrite skipn_app, firstn_app. replace (4 - List.length a)%nat with 0%nat by lia. cbn [skipn firstn]. rewrite app_nil_r, <- app_assoc. reflexivity. }
  assert (PP : forall p q, firstn 2 (skipn 2 (a ++ p :: q :: b)) = firstn 2 (skipn 2 a)).
  { intros p q. rewrite skipn_app, firstn_app. rewrite skipn_length. replace (2 - (List.length a - 2))%nat with 0%nat by lia. cbn [firstn]. apply app_nil_r. }
  destruct (proj1 R1 eq_refl) as [Q1 [Q2 Q3]]. rewrite PP in Q2, R2. unfold check97 in Q3, R2. rewrite E in Q3, R2.
  assert (Q1' : len (a ++ y :: x :: b) <= 34) by (rewrite len_list, app_length in *; cbn [List.length] in *; exact Q1).
  pose proof (number_swap (skipn 4 a) x y (b ++ firstn 4 a)) as D. rewrite <- (swap_arith x y Hx Hy). rewrite R2. cbv zeta.
  set (d := value x * ((if is_digit y then 10 else 100) - 1) - value y * ((if is_digit x then 10 else 100) - 1)) in *.
  assert (W : 0 <= width (b ++ firstn 4 a)) by apply width_nonneg. split.
  - intros [_ [_ K]]. apply (ten_cancel (width (b ++ firstn 4 a))); [exact W|]. rewrite <- D. clear - Q3 K. lia.
  - intros K. split; [exact Q1'|]. split; [exact Q2|].
    assert (K2 : (d * 10 ^ width (b ++ firstn 4 a)) mod 97 = 0) by (rewrite Z.mul_mod, K by lia; reflexivity).
    rewrite <- D in K2. clear - Q3 K2. lia.
Qed.
Print Assumptions C33_swap.
(** Hence for digits: swapping two different neighbours is always noticed. *)
Theorem C33_swap_digits : forall a x y b,
  forallb alnum (a ++ x :: y :: b) = true -> 4 <= len a -> is_digit x = true -> is_digit y = true -> x <> y ->
  valid (a ++ x :: y :: b) = Ok true -> valid (a ++ y :: x :: b) = Ok false.
Proof.
  intros a x y b H L Dx Dy N V. destruct (C33_swap a x y b H L V) as [r [E R]]. rewrite E. f_equal. destruct r; [|reflexivity]. exfalso.
  assert (Vx : value x = zb x - 48) by (unfold value; rewrite Dx; reflexivity). assert (Vy : value y = zb y - 48) by (unfold value; rewrite Dy; reflexivity).
  unfold is_digit in Dx, Dy. unfold blind_pair in R. destruct (proj1 R eq_refl) as [K|K]; [|lia]. apply N. apply zb_inj. lia.
Qed.
Print Assumptions C33_swap_digits.
Example C33_swap_example : valid (B "DE02100500000024290661") = Ok true /\ valid (B "DE02100500000024920661") = Ok false.
Proof. split; vm_compute; reflexivity. Qed.
Theorem C33_blind_pair_refuted : exists i j, new_iban (B "GB") (B "X1BA00000012345678") = Ok i /\
  i = B "GB06X1BA00000012345678" /\ j = B "GB06XB1A00000012345678" /\ valid i = Ok true /\ valid j = Ok true.
Proof.
  eexists _, _. split; [vm_compute; reflexivity|]. split; [reflexivity|]. split; [reflexivity|]. split; vm_compute; reflexivity.
Qed.
Print Assumptions C33_blind_pair_refuted.
Print Assumptions C32_valid_not_unique_refuted.

(** ** C41: the parts of a German IBAN *)
Theorem C41_parts : forall bank account i, new_german bank account = Ok i ->
  List.length bank = 8%nat -> forallb is_digit bank = true -> forallb is_digit account = true ->
  country_code i = Ok (B "DE") /\ bank_id_of i = Ok bank /\ (exists zeros rest, account = repeat b_zero zeros ++ rest /\ hd_error rest <> Some b_zero /\ account_id_of i = Ok rest) /\
  proof_number i = Ok (itoa_pad 2 (check_number (B "DE") (bank ++ (if len account =? 9 then b_zero :: account else account)))) /\
  bban_of i = Ok (bank ++ (if len account =? 9 then b_zero :: account else account)).
Proof.
  intros bank account i H LB HB HA. apply (proj1 (C31_german bank account i HB HA)) in H. cbv zeta in H.
  set (acc := if len account =? 9 then b_zero :: account else account) in *. destruct H as [_ ->].
  assert (Hp : 0 <= check_number (B "DE") (bank ++ acc) <= 99) by (unfold check_number; lia). destruct (pp_spec _ Hp) as [x [y [E1 _]]]. rewrite E1.
  assert (EI : forall r, B "DE" ++ [x; y] ++ r = "D"%byte :: "E"%byte :: x :: y :: r) by reflexivity. rewrite !EI.
  destruct (slice_parts "D" "E" x y (bank ++ acc)) as [S1 [S2 S3]]. unfold country_code, proof_number, bban_of. rewrite S1, S2, S3.
  split; [reflexivity|]. split; [|split; [|split; [reflexivity|reflexivity]]].
  - unfold bank_id_of, slice. rewrite len_list. cbn [List.length]. rewrite app_length, LB.
    destruct (Z.ltb_spec (Z.of_nat (S (S (S (S (8 + List.length acc)))))) 12); [lia|]. f_equal. change (Z.to_nat (12 - 4)) with 8%nat. change (Z.to_nat 4) with 4%nat.
    cbn [skipn]. rewrite firstn_app, LB. rewrite (firstn_all2 bank) by lia. apply app_nil_r.
  - destruct (trim_left_spec b_zero account) as (k&Ek&Hk). exists k, (trim_left b_zero account).
    split; [exact Ek|]. split; [destruct (trim_left b_zero account) as [|c r]; [discriminate|cbn [hd_error]; specialize (Hk c r eq_refl); congruence]|].
    unfold account_id_of, slice_from. rewrite len_list. cbn [List.length]. rewrite app_length, LB.
    destruct (Z.ltb_spec (Z.of_nat (S (S (S (S (8 + List.length acc)))))) 12); [lia|]. cbn [obind]. f_equal. change (skipn (Z.to_nat 12) ("D"%byte :: "E"%byte :: x :: y :: bank ++ acc)) with (skipn 8 (bank ++ acc)).
    rewrite skipn_app, LB. rewrite (skipn_all2 bank) by lia. change (8 - 8)%nat with 0%nat. cbn [app]. change (skipn 0 acc) with acc. unfold acc. destruct (len account =? 9); [|reflexivity]. reflexivity.
Qed.
Print Assumptions C41_parts.
Example C41_example : exists i, new_german (B "10050000") (B "024290661") = Ok i /\ bank_id_of i = Ok (B "10050000") /\ account_id_of i = Ok (B "24290661").
Proof. eexists. split; [vm_compute; reflexivity|]. split; vm_compute; reflexivity. Qed.
(** A German IBAN has 22 characters.  With a bank ID of eight digits the result has 22
    characters exactly if the account number is given with nine or ten digits; shorter
    numbers are not filled up, the result is too short and passes Valid all the same. *)
Theorem C41_length : forall bank account i, new_german bank account = Ok i ->
  List.length bank = 8%nat -> forallb is_digit bank = true -> forallb is_digit account = true ->
  (len i = 22 <-> len account = 9 \/ len account = 10).
Proof.
  intros bank account i H LB HB HA. apply (proj1 (C31_german bank account i HB HA)) in H. cbv zeta in H. destruct H as [_ ->].
  assert (Hp : 0 <= check_number (B "DE") (bank ++ (if len account =? 9 then b_zero :: account else account)) <= 99) by (unfold check_number; lia).
  destruct (pp_spec _ Hp) as [x [y [E1 _]]]. rewrite E1. rewrite !len_list. rewrite !app_length, LB. change (List.length (B "DE")) with 2%nat. cbn [List.length].
  destruct (Z.eqb_spec (Z.of_nat (List.length account)) 9); cbn [List.length]; lia.
Qed.
Print Assumptions C41_length.
Theorem C41_short_refuted : exists i, new_german (B "10050000") (B "24290661") = Ok i /\ valid i = Ok true /\ len i = 20.
Proof. eexists. split; [vm_compute; reflexivity|]. split; vm_compute; reflexivity. Qed.
Print Assumptions C41_short_refuted.

(** ** C42: the paper form *)
Lemma quad_ind (P : list byte -> Prop) : (forall l, (List.length l < 4)%nat -> P l) -> (forall a b c d r, P r -> P (a :: b :: c :: d :: r)) -> forall l, P l.
Proof.
  intros H0 H1 l. remember (List.length l) as n eqn:E. revert l E. induction n as [n IH] using lt_wf_ind. intros l ->.
  destruct l as [|a [|b [|c [|d r]]]]; try (apply H0; cbn; lia). apply H1. apply (IH (List.length r)); [cbn; lia|reflexivity].
Qed.
Lemma fill4_more a b c d r : fill4 (a :: b :: c :: d :: r) = a :: b :: c :: d :: fill4 r.
Proof.
  unfold fill4. cbn [app List.length]. do 4 f_equal. f_equal. f_equal.
  replace (S (S (S (S (List.length r))))) with (List.length r + 1 * 4)%nat by lia. rewrite Nat.mod_add by lia. reflexivity.
Qed.
Lemma groups_paper i : i <> [] -> exists t k, groups (fill4 i) = t ++ repeat b_space k /\ paper i t.
Proof.
  induction i as [l L|a b c d r IH] using quad_ind; intros N.
  - destruct l as [|a [|b [|c [|? ?]]]]; try (cbn in L; lia); [congruence|..].
    + exists [a], 4%nat. split; [reflexivity|]. constructor. cbn. lia.
    + exists [a; b], 3%nat. split; [reflexivity|]. constructor. cbn. lia.
    + exists [a; b; c], 2%nat. split; [reflexivity|]. constructor. cbn. lia.
  - rewrite fill4_more. cbn [groups]. destruct r as [|x r].
    + exists [a; b; c; d], 1%nat. split; [reflexivity|]. constructor. cbn. lia.
    + destruct IH as [t [k [E P]]]; [discriminate|]. rewrite E. exists (a :: b :: c :: d :: b_space :: t), k. split; [reflexivity|].
      apply paper_more; [discriminate|exact P].
Qed.
Lemma paper_ends i t : paper i t -> forallb alnum i = true -> (exists x r, t = x :: r /\ alnum x = true) /\ (exists r y, t = r ++ [y] /\ alnum y = true).
Proof.
  induction 1 as [i L|a b c d r t N P IH]; intros H.
  - split.
    + destruct i as [|x r]; [cbn in L; lia|]. exists x, r. split; [reflexivity|]. cbn in H. apply andb_prop in H. apply H.
    + destruct (@exists_last _ i) as [r [y E]]; [intros ->; cbn in L; lia|]. exists r, y. split; [exact E|]. subst i. rewrite forallb_app in H. apply andb_prop in H. destruct H as [_ H]. cbn in H. apply andb_prop in H. apply H.
  - cbn [forallb] in H. repeat (apply andb_prop in H; destruct H as [? H]). destruct (IH H) as [_ [q [y [E Hy]]]]. split.
    + exists a. eexists. split; [reflexivity|assumption].
    + exists (a :: b :: c :: d :: " "%byte :: q), y. rewrite E. split; [reflexivity|exact Hy].
Qed.
Lemma trim_left_spaces k l : trim_space_left (repeat b_space k ++ l) = trim_space_left l.
Proof. induction k as [|k IH]; [reflexivity|exact IH]. Qed.
Theorem C42_paper : forall i, i <> [] -> forallb alnum i = true -> paper i (print i).
Proof.
  intros i N H. destruct (groups_paper i N) as [t [k [E P]]]. destruct (paper_ends i t P H) as [[x [r [E1 X]]] [q [y [E2 Y]]]].
  unfold print. rewrite E. replace (trim_space (t ++ repeat b_space k)) with t; [exact P|]. unfold trim_space.
  assert (T1 : trim_space_left (t ++ repeat b_space k) = t ++ repeat b_space k).
  { rewrite E1. cbn [app trim_space_left]. destruct (alnum_ascii x X) as [_ [_ [_ [_ S]]]]. rewrite S. reflexivity. }
  rewrite T1, rev_app_distr, rev_repeat, trim_left_spaces. rewrite E2 at 2. rewrite rev_app_distr. cbn [rev app trim_space_left].
  destruct (alnum_ascii y Y) as [_ [_ [_ [_ S]]]]. rewrite S. rewrite E2. cbn [rev]. rewrite rev_involutive. reflexivity.
Qed.
Print Assumptions C42_paper.
(** Without the spaces it is the IBAN again. *)
Theorem C42_same_characters : forall i, forallb alnum i = true -> filter (fun c => negb (beq c " ")) (print i) = i.
Proof.
  intros i H. destruct i as [|x i]; [reflexivity|]. assert (P : paper (x :: i) (print (x :: i))) by (apply C42_paper; [discriminate|exact H]).
  assert (NS : forall c, alnum c = true -> negb (beq c " ") = true).
  { intros c Hc. set (Q := fun c => negb (alnum c) || negb (beq c " ")). sweep Q c. rewrite Hc in SW. exact SW. }
  revert H. induction P as [l L|a b c d r t N P IH]; intros H.
  - clear L. induction l as [|c l IHl]; [reflexivity|]. cbn [forallb] in H. apply andb_prop in H. destruct H as [Hc H].
    cbn [filter]. rewrite (NS c Hc). f_equal. exact (IHl H).
  - cbn [forallb] in H. repeat (apply andb_prop in H; destruct H as [? H]). cbn [filter]. rewrite !NS by assumption. rewrite beq_refl. cbn [negb]. rewrite (IH H). reflexivity.
Qed.
Print Assumptions C42_same_characters.
Example C42_example : print (B "DE02100500000024290661") = B "DE02 1005 0000 0024 2906 61".
Proof. vm_compute. reflexivity. Qed.
