From Verif Require Import Base BaseFacts Lexer_Model Lexer_Spec Codec_Model Codec_Spec Codec_Proofs Wire_Model Wire_Spec
  Lexer_Proofs Lexer_Facts Wire_Proofs Wire_Facts Wire_Facts2 Wire_Facts3 Message_Model Message_Spec Message_Facts Dialog_Model Client_Model Time_Model Time_Props Seg_Model Seg_Spec Seg_Facts Seg_Facts2
  Request_Model Request_Spec Request_Facts4 Read_Spec Read_Facts.
From Coq Require Import Lia ZifyBool ZifyNat ZifyN.
Open Scope Z_scope.

(** ** Values determine what was written *)
Lemma chars_inj a b : chars a = chars b -> a = b.
Proof.
  unfold chars. revert b. induction a as [|x a IH]; intros [|y b] H; try discriminate; [reflexivity|]. cbn [map] in H. injection H as -> H. f_equal. auto.
Qed.
Lemma itoa_inj a b : in_int64 a = true -> in_int64 b = true -> itoa a = itoa b -> a = b.
Proof. intros Ha Hb E. apply atoi_itoa in Ha, Hb. rewrite E, Hb in Ha. now injection Ha. Qed.
Lemma itoa_pad_inj w a b : in_int64 a = true -> in_int64 b = true -> itoa_pad w a = itoa_pad w b -> a = b.
Proof. intros Ha Hb E. apply (atoi_itoa_pad w) in Ha, Hb. rewrite E, Hb in Ha. now injection Ha. Qed.
Lemma date_inj a b : real_date a -> real_date b -> yyyymmdd a = yyyymmdd b -> a = b.
Proof.
  intros Ha Hb E. assert (Pa : parse_date (yyyymmdd a) = Ok a) by (now apply parse_date_iff). assert (Pb : parse_date (yyyymmdd b) = Ok b) by (now apply parse_date_iff).
  rewrite E, Pb in Pa. now injection Pa.
Qed.
(** Value [k] of data element [j] behind the header. *)
Definition field_value (p : part) (j k : nat) : list token :=
  match nth_error (nth j (pt_fields p) []) k with Some x => item_value x | None => [] end.
Definition same_part (p p' : part) : Prop := pt_id p = pt_id p' /\
  (in_int64 (pt_version p) = true -> in_int64 (pt_version p') = true -> pt_version p = pt_version p') /\
  forall j k, field_value p j k = field_value p' j k.
Lemma given_same l l' i n n' p p' : (forall i j k, given_value l i j k = given_value l' i j k) ->
  nth_error l i = Some (n, p) -> nth_error l' i = Some (n', p') -> same_part p p'.
Proof.
  intros H E E'. split; [|split].
  - specialize (H i O O). unfold given_value in H. rewrite E, E' in H. cbn [nth elements_of nth_error item_value] in H. now apply chars_inj.
  - intros V V'. specialize (H i O 2%nat). unfold given_value in H. rewrite E, E' in H. cbn [nth elements_of nth_error item_value item_wire] in H.
    apply chars_inj in H. now apply itoa_inj.
  - intros j k. specialize (H i (S j) k). unfold given_value in H. rewrite E, E' in H. exact H.
Qed.
Lemma counted_nth l : forall n i, nth_error (counted n l) i = option_map (fun p => (n + Z.of_nat i, p)) (nth_error l i).
Proof.
  induction l as [|p l IH]; intros n i; [now destruct i|]. destruct i as [|i]; cbn [counted nth_error option_map]; [do 2 f_equal; lia|].
  rewrite IH. destruct (nth_error l i); [|reflexivity]. cbn [option_map]. do 2 f_equal. lia.
Qed.
Lemma counted_length l : forall n, List.length (counted n l) = List.length l.
Proof. induction l as [|p l IH]; intros n; [reflexivity|]. cbn [counted List.length]. now rewrite IH. Qed.
Lemma counted_same n l l' : finds (parts_wire (counted n l)) (counted n l) -> finds (parts_wire (counted n l)) (counted n l') -> Forall2 same_part l l'.
Proof.
  intros H H'. destruct (finds_unique _ _ _ H H') as [L V]. rewrite !counted_length in L.
  assert (G : forall i p p', nth_error l i = Some p -> nth_error l' i = Some p' -> same_part p p').
  { intros i p p' E E'. apply (given_same _ _ i (n + Z.of_nat i) (n + Z.of_nat i) p p' V); rewrite counted_nth; [rewrite E|rewrite E']; reflexivity. }
  clear - L G. revert l' L G. induction l as [|p l IH]; intros [|p' l'] L G; try discriminate; [constructor|]. constructor; [apply (G O); reflexivity|].
  apply IH; [now injection L|]. intros i q q' E E'. now apply (G (S i)).
Qed.

(** ** The segments *)
Ltac val H j k := let K := fresh "V" in pose proof (H j k) as K;
  cbn [field_value nth nth_error item_value item_wire pt_fields national_group international_sent key_items Request_Spec.bank_items sender_items app mark_field] in K;
  unfold field_value in K; cbn [nth nth_error item_value item_wire pt_fields app] in K; try apply chars_inj in K.
Lemma flag_inj a b : (if a : bool then B "J" else B "N") = (if b : bool then B "J" else B "N") -> a = b.
Proof. destruct a, b; try reflexivity; discriminate. Qed.
Lemma same_international a b : in_int64 (fst (bank_of a)) = true -> in_int64 (fst (bank_of b)) = true ->
  (forall k, match nth_error (international_sent a) k with Some x => item_value x | None => [] end =
             match nth_error (international_sent b) k with Some x => item_value x | None => [] end) -> same_account a b.
Proof.
  intros Ha Hb H. pose proof (H 0%nat) as H0. pose proof (H 1%nat) as H1. pose proof (H 2%nat) as H2. pose proof (H 3%nat) as H3.
  pose proof (H 4%nat) as H4. pose proof (H 5%nat) as H5. clear H. unfold international_sent in *. cbn [app nth_error item_value] in *.
  apply chars_inj in H0, H1, H2, H3. unfold same_account. do 4 (split; [assumption|]). unfold bank_of in *.
  destruct (in_bank a) as [[c x]|], (in_bank b) as [[c' x']|]; cbn [fst nth_error item_value item_wire] in *; apply chars_inj in H4.
  - apply itoa_pad_inj in H4; [|assumption..]. apply chars_inj in H5. congruence.
  - apply (itoa_pad_inj 3 c 0) in H4; [|assumption..]. apply (chars_inj x []) in H5. now rewrite H4, H5.
  - apply (itoa_pad_inj 3 0 c') in H4; [|assumption..]. apply (chars_inj [] x') in H5. now rewrite <- H4, <- H5.
  - reflexivity.
Qed.
Lemma same_national a b : in_int64 (na_country a) = true -> in_int64 (na_country b) = true ->
  (forall k, match nth_error (national_group a) k with Some x => item_value x | None => [] end =
             match nth_error (national_group b) k with Some x => item_value x | None => [] end) -> a = b.
Proof.
  intros Ha Hb H. pose proof (H 0%nat) as H0. pose proof (H 1%nat) as H1. pose proof (H 2%nat) as H2. pose proof (H 3%nat) as H3. clear H.
  destruct a as [a1 a2 a3 a4], b as [b1 b2 b3 b4]. unfold national_group in *. cbn [nth_error item_value item_wire na_account na_sub na_country na_bank] in *.
  apply chars_inj in H0, H1, H2, H3. apply itoa_pad_inj in H2; [|assumption..]. congruence.
Qed.
Lemma no_national a b : (forall k, match nth_error (national_group a) k with Some x => item_value x | None => [] end =
             match nth_error (international_sent b) k with Some x => item_value x | None => [] end) -> False.
Proof.
  intros H. specialize (H 4%nat). unfold national_group, international_sent in H. cbn [app nth_error] in H.
  destruct (in_bank b) as [[c x]|]; cbn [nth_error item_value item_wire] in H.
  - pose proof (Wire_Proofs.good_itoa_pad 3 c) as G. destruct (itoa_pad 3 c) eqn:E; [|discriminate]. now apply Seg_Facts2.itoa_pad_ne in E.
  - discriminate.
Qed.
Lemma wish_same today today' w w' m m' : real_date today -> real_date today' -> 1 <= d_year today -> 1 <= d_year today' ->
  Forall real_date (wish_dates w) -> Forall real_date (wish_dates w') ->
  Forall (fun z => in_int64 z = true) (wish_ints w) -> Forall (fun z => in_int64 z = true) (wish_ints w') ->
  same_part (wish_part today w m) (wish_part today' w' m') -> same_wish today today' w w' /\ m = m'.
Proof.
  intros R R' Y Y' D D' I I' (Hid&Hv&H). pose proof (a_month_ago_real today R Y) as A. pose proof (a_month_ago_real today' R' Y') as A'.
  assert (Df : forall o, Forall real_date (match o with Some d => [d] | None => [] end) -> real_date (from_or today o) /\ real_date (to_or today o)).
  { intros [d|] K; cbn [from_or to_or]; [inversion_clear K; now split|now split]. }
  assert (Df' : forall o, Forall real_date (match o with Some d => [d] | None => [] end) -> real_date (from_or today' o) /\ real_date (to_or today' o)).
  { intros [d|] K; cbn [from_or to_or]; [inversion_clear K; now split|now split]. }
  assert (Hg : forall k, field_value (wish_part today w m) 0 k = field_value (wish_part today' w' m') 0 k) by (intros; apply H).
  destruct w as [v a all|v a all|v a from to all|v a from to all|v a all|v from to n],
           w' as [v' a' all'|v' a' all'|v' a' from' to' all'|v' a' from' to' all'|v' a' all'|v' from' to' n'];
    cbn [wish_part pt_id] in Hid; try discriminate Hid; clear Hid;
    cbn [wish_part pt_version pt_fields app mark_field wish_dates wish_ints] in *;
    unfold field_value in *; cbn [pt_fields nth] in Hg;
    try (exfalso; eapply no_national; exact Hg);
    try (exfalso; eapply no_national; intros k; symmetry; exact (Hg k));
    repeat match goal with K : Forall _ (_ :: _) |- _ => inversion_clear K end;
    assert (v = v') as <- by (apply Hv; assumption).
  - split; [|now val H 3%nat 0%nat]. split; [reflexivity|]. split; [now apply same_national|]. val H 1%nat 0%nat. now apply flag_inj.
  - split; [|now val H 3%nat 0%nat]. split; [reflexivity|]. split; [now apply same_international|]. val H 1%nat 0%nat. now apply flag_inj.
  - apply Forall_app in D, D'. destruct D as [D1 D2], D' as [D1' D2'].
    split; [|now val H 5%nat 0%nat]. split; [reflexivity|]. split; [now apply same_national|].
    split; [|split]; [val H 2%nat 0%nat; apply date_inj; [apply Df|apply Df'|]; assumption|val H 3%nat 0%nat; apply date_inj; [apply Df|apply Df'|]; assumption|].
    val H 1%nat 0%nat. now apply flag_inj.
  - apply Forall_app in D, D'. destruct D as [D1 D2], D' as [D1' D2'].
    split; [|now val H 5%nat 0%nat]. split; [reflexivity|]. split; [now apply same_international|].
    split; [|split]; [val H 2%nat 0%nat; apply date_inj; [apply Df|apply Df'|]; assumption|val H 3%nat 0%nat; apply date_inj; [apply Df|apply Df'|]; assumption|].
    val H 1%nat 0%nat. now apply flag_inj.
  - split; [|now val H 3%nat 0%nat]. split; [reflexivity|]. split; [now apply same_national|]. val H 1%nat 0%nat. now apply flag_inj.
  - split; [|now val H 3%nat 0%nat]. split; [reflexivity|]. split; [val H 0%nat 0%nat; now apply date_inj|]. split; [val H 1%nat 0%nat; now apply date_inj|].
    val H 2%nat 0%nat. now apply itoa_inj.
Qed.
Lemma identification_same x x' c c' s s' b b' : same_part (identification x c s b) (identification x' c' s' b') -> c = c' /\ s = s'.
Proof. intros (_&_&H). val H 1%nat 0%nat. val H 2%nat 0%nat. now split. Qed.
Lemma preparation_same x x' b b' u u' : in_int64 b = true -> in_int64 b' = true -> in_int64 u = true -> in_int64 u' = true ->
  same_part (preparation x b u) (preparation x' b' u') -> b = b' /\ u = u'.
Proof. intros I1 I2 I3 I4 (_&_&H). val H 0%nat 0%nat. val H 1%nat 0%nat. split; now apply itoa_inj. Qed.
Lemma body_same x x' today today' dialog dialog' a a' : real_date today -> real_date today' -> 1 <= d_year today -> 1 <= d_year today' ->
  Forall real_date (ask_dates a) -> Forall real_date (ask_dates a') ->
  Forall (fun z => in_int64 z = true) (ask_ints a) -> Forall (fun z => in_int64 z = true) (ask_ints a') ->
  forall signed, Forall2 same_part (body_parts x today dialog signed a) (body_parts x' today' dialog' signed a') ->
  (signed = false -> (forall w m, a <> QJob w m) /\ forall w m, a' <> QJob w m) -> same_ask today today' a a'.
Proof.
  intros R R' Y Y' D D' I I' signed H Hj.
  assert (N : signed = false -> match a with QJob _ _ => False | _ => True end /\ match a' with QJob _ _ => False | _ => True end).
  { intros E. destruct (Hj E) as [J J']. split; [destruct a; try exact Logic.I; now destruct (J w mark)|destruct a'; try exact Logic.I; now destruct (J' w mark)]. }
  destruct a as [c|c s b u|w m|], a' as [c'|c' s' b' u'|w' m'|]; cbn [body_parts same_ask app ask_dates ask_ints] in *;
    try (destruct signed; cbn [app] in H);
    try (exfalso; destruct (N eq_refl); contradiction);
    repeat match goal with K : Forall2 _ (_ :: _) _ |- _ => inversion K; clear K; subst | K : Forall2 _ [] _ |- _ => inversion K; clear K; subst end;
    repeat match goal with K : Forall2 _ (_ :: _) [] |- _ => inversion K | K : Forall2 _ [] (_ :: _) |- _ => inversion K end;
    repeat match goal with K : Forall _ (_ :: _) |- _ => inversion_clear K end.
  all: try exact Logic.I.
  all: try match goal with K : same_part (identification _ _ _ _) (identification _ _ _ _) |- _ => apply identification_same in K; destruct K; try assumption end.
  all: try match goal with K : same_part (preparation _ _ _) (preparation _ _ _) |- _ => apply preparation_same in K; [|assumption..]; destruct K; now repeat split end.
  all: try (eapply wish_same; eassumption).
Qed.
