(** * C67, continued: the remaining groups, and Length *)
From Coq Require Import Lia ZifyBool ZifyNat ZifyN.
From Verif Require Import Base BaseFacts Lexer_Model Codec_Model Codec_Proofs Wire_Model Time_Model Seg_Model Seg_Facts Request_Model
  Valid_Model Valid_Spec Valid_Facts Valid_Props.
Open Scope Z_scope.

(** ** The elements of signatures and encryption *)
Lemma int1 z : int_fits 1 z <-> 0 <= z <= 9.
Proof. unfold int_fits. change (10 ^ (1 - 1)) with 1. change (10 ^ 1) with 10. lia. Qed.
Lemma int2 z : int_fits 2 z <-> -9 <= z <= 99.
Proof. unfold int_fits. change (10 ^ (2 - 1)) with 10. change (10 ^ 2) with 100. lia. Qed.
Lemma part_binary max d : part_ok (Some (VBinary max d)) <-> listing_length d <= max.
Proof. unfold part_ok. rewrite valid_acceptable. split; [now inversion 1|now constructor]. Qed.
Lemma part_moment time d t : part_ok (Some (VMoment time d t)) <-> ~ (d = mkDate 1 1 1 /\ t = mkTod 0 0 0).
Proof. unfold part_ok. rewrite valid_acceptable. split; [now inversion 1|now constructor]. Qed.
Lemma part_currency v : part_ok (Some (VCurrency v)) <-> List.length v = 3%nat.
Proof. unfold part_ok. rewrite valid_acceptable. split; [now inversion 1|now constructor]. Qed.
Definition money_ok (f : gofloat) (currency : bytes) : Prop :=
  (exists n, float_length f n /\ n <= 15) /\ List.length currency = 3%nat.
Lemma part_value f : part_ok (Some (new_value f)) <-> exists n, float_length f n /\ n <= 15.
Proof.
  unfold part_ok, new_value. rewrite valid_acceptable. split.
  - inversion 1; subst; eauto.
  - intros (n & F & L). econstructor; eassumption.
Qed.
Lemma part_amount f c : part_ok (Some (v_amount f c)) <-> money_ok f c.
Proof.
  unfold part_ok, v_amount, money_ok. group 2. rewrite !Forall_cons_iff, part_value, part_currency. intuition; constructor.
Qed.
Theorem C67_security :
  (forall system, valid (v_security_id system) = Ok true <-> field_ok 30 system) /\
  (forall d t, valid (v_security_date (d, t)) = Ok true <-> ~ (d = mkDate 1 1 1 /\ t = mkTod 0 0 0)) /\
  valid v_hash = Ok true /\ valid v_sig_algorithm = Ok true /\
  (forall method, valid (v_profile method) = Ok true <-> -99 <= method <= 999) /\
  (forall key param, valid (v_enc_algorithm key param) = Ok true <-> listing_length key <= 512 /\ field_ok 3 param) /\
  (forall type_ modulus, valid (v_public_key type_ modulus) = Ok true <-> field_ok 3 type_ /\ listing_length modulus <= 512) /\
  (forall typ content, valid (v_certificate typ content) = Ok true <-> 0 <= typ <= 9 /\ listing_length content <= 2048).
Proof.
  assert (C : forall v, alnum_valid v 3 = true -> field_ok 3 v) by (intros v H; now apply alnum_valid_spec).
  assert (F1 : field_ok 3 (B "1")) by (apply C; reflexivity). assert (F2 : field_ok 3 (B "2")) by (apply C; reflexivity).
  assert (F13 : field_ok 3 (B "13")) by (apply C; reflexivity). assert (F16 : field_ok 3 (B "16")) by (apply C; reflexivity).
  assert (F10 : field_ok 3 (B "10")) by (apply C; reflexivity). assert (F12 : field_ok 3 (B "12")) by (apply C; reflexivity).
  assert (FP : field_ok 3 (B "PIN")) by (apply C; reflexivity).
  repeat match goal with |- _ /\ _ => split end; try reflexivity; intros.
  - unfold v_security_id, new_id. group 3. rewrite !Forall_cons_iff, !part_alnum, part_none. intuition; constructor.
  - unfold v_security_date, fst, snd. group 3. rewrite !Forall_cons_iff, !part_alnum, !part_moment. intuition; constructor.
  - unfold v_profile, new_number. group 2. rewrite !Forall_cons_iff, !part_alnum, part_int, int3. intuition; constructor.
  - unfold v_enc_algorithm. group 7. rewrite !Forall_cons_iff, !part_alnum, part_binary, part_none. intuition; constructor.
  - unfold v_public_key. group 7. rewrite !Forall_cons_iff, !part_alnum, !part_binary.
    assert (L : listing_length (B "65537") <= 512) by (vm_compute; discriminate). intuition; constructor.
  - unfold v_certificate, new_number. group 2. rewrite !Forall_cons_iff, part_int, part_binary, int1. intuition; constructor.
Qed.
Print Assumptions C67_security.
Example C67_security_example : valid (v_security_id (B "4711")) = Ok true /\ valid (v_security_id (B "47 11")) = Ok false /\
  valid (v_public_key (B "S") (repeat "200"%byte 96)) = Ok true /\ valid (v_public_key (B "S") (repeat "200"%byte 128)) = Ok false /\
  valid (v_certificate 3 (repeat "000"%byte 100)) = Ok true.
Proof. repeat split; vm_compute; reflexivity. Qed.
(** The public key element has room for 512 bytes; a modulus of 256 bytes is never valid. *)
Theorem C67_key_length_refuted : forall type_ modulus, (256 <= List.length modulus)%nat -> valid (v_public_key type_ modulus) = Ok false.
Proof.
  intros t m H.
  assert (W : whole (v_public_key t m)).
  { unfold v_public_key. whole_tac. }
  apply (proj2 (proj2 (C67_exact _) W)). rewrite <- (proj1 (C67_exact _)).
  destruct C67_security as (_ & _ & _ & _ & _ & _ & K & _). rewrite K. intros (_ & L).
  assert (A : valid (VBinary 512 m) = Ok true) by (apply (part_binary 512 m), L).
  apply (proj1 C67_binary_refuted) in A. lia.
Qed.
Print Assumptions C67_key_length_refuted.

(** ** Parameter data, addresses and balances *)
Theorem C67_parameters :
  (forall p address addition filter v, valid (v_communication p address addition filter v) = Ok true <->
     -9 <= p <= 99 /\ field_ok 512 address /\ field_ok 512 addition /\ field_ok 3 filter /\ -99 <= v <= 999) /\
  (forall kind f c days, valid (v_limit kind f c days) = Ok true <-> field_ok 1 kind /\ money_ok f c /\ -99 <= days <= 999) /\
  (forall code vs, valid (v_security_method code vs) = Ok true <->
     field_ok 3 code /\ (1 <= List.length vs <= 9)%nat /\ Forall (fun v => -99 <= v <= 999) vs).
Proof.
  split; [|split]; intros.
  - unfold v_communication, new_number. group 5. rewrite !Forall_cons_iff, !part_int, !part_alnum, int2, int3. intuition; constructor.
  - unfold v_limit, new_number. group 3. rewrite !Forall_cons_iff, part_int, part_alnum, part_amount, int3. intuition; constructor.
  - unfold v_security_method. group 2. rewrite !Forall_cons_iff, part_alnum.
    assert (P : part_ok (Some (v_versions vs)) <-> (1 <= List.length vs <= 9)%nat /\ Forall (fun v => -99 <= v <= 999) vs).
    { unfold part_ok, v_versions. rewrite valid_array, map_length.
      destruct ((Z.of_nat (List.length vs) <? 1) || (9 <? Z.of_nat (List.length vs))) eqn:E.
      - split; [easy|]. intros (L & _). lia.
      - rewrite each_true, Forall_forall. split.
        + intros H. split; [lia|]. intros p Hp. apply int3, (part_int false 3 p). apply H. now apply (in_map (fun z => new_number z 3)).
        + intros (_ & H) x Hx. apply in_map_iff in Hx. destruct Hx as (p & <- & Hp). apply (part_int false 3 p), int3, H, Hp. }
    rewrite P. intuition; constructor.
Qed.
Print Assumptions C67_parameters.

(** The transactions a user may do: one is valid if its identification, its number of
    signatures and its limit, if any, are; at most 999 of them. *)
Definition transaction_ok (x : bytes * Z * option (bytes * gofloat * bytes * Z)) : Prop :=
  let '(id, signatures, limit) := x in
  field_ok 6 id /\ -9 <= signatures <= 99 /\
  match limit with Some (kind, f, c, days) => field_ok 1 kind /\ money_ok f c /\ -99 <= days <= 999 | None => True end.
Lemma part_transaction id n limit : part_ok (Some (v_transaction id n limit)) <-> transaction_ok (id, n, limit).
Proof.
  unfold part_ok, v_transaction, transaction_ok, new_number. destruct limit as [[[[kind f] c] days]|]; group 5;
    rewrite !Forall_cons_iff, ?part_int, ?part_alnum, ?part_amount, ?part_none, int2, ?int3; intuition; constructor.
Qed.
Theorem C67_transactions : forall l, valid (v_transactions l) = Ok true <-> (List.length l <= 999)%nat /\ Forall transaction_ok l.
Proof.
  intros l. unfold v_transactions. rewrite valid_array, map_length.
  destruct ((Z.of_nat (List.length l) <? 0) || (999 <? Z.of_nat (List.length l))) eqn:E.
  - split; [easy|]. intros (L & _). lia.
  - rewrite each_true, Forall_forall. split.
    + intros H. split; [lia|]. intros [[id n] limit] Hp. apply part_transaction. apply H.
      now apply (in_map (fun x => v_transaction (fst (fst x)) (snd (fst x)) (snd x)) l (id, n, limit)).
    + intros (_ & H) x Hx. apply in_map_iff in Hx. destruct Hx as ([[id n] limit] & <- & Hp). cbn [fst snd].
      apply (part_transaction id n limit), H, Hp.
Qed.
Print Assumptions C67_transactions.
Example C67_transactions_example :
  valid (v_transactions [(B "HKPRO", 1, None); (B "HKSAL", 1, Some (B "E", FNum false 1000 [], B "EUR", 7))]) = Ok true /\
  valid (v_transactions [(B "HKPRO", 100, None)]) = Ok false /\ valid (v_transactions [(B "HKPRO", 1, Some (B "E", FNum false 1 [], B "EU", 7))]) = Ok false.
Proof. repeat split; vm_compute; reflexivity. Qed.

Theorem C67_address : forall n1 n2 street plz city country phone fax email,
  valid (v_address n1 n2 street plz city country phone fax email) = Ok true <->
  Forall (field_ok 35) [n1; n2; street; city; phone; fax; email] /\ field_ok 10 plz /\ -99 <= country <= 999.
Proof.
  intros. unfold v_address, new_country. group 9. rewrite !Forall_cons_iff, part_int, !part_alnum, int3. intuition; constructor.
Qed.
Print Assumptions C67_address.
(** The street "Am Markt 1" is not valid. *)
Theorem C67_address_refuted : forall n1 n2 street plz city country phone fax email,
  In " "%byte street -> valid (v_address n1 n2 street plz city country phone fax email) = Ok false.
Proof.
  intros n1 n2 s plz city c phone fax email H.
  assert (W : whole (v_address n1 n2 s plz city c phone fax email)) by (unfold v_address; whole_tac).
  apply (proj2 (proj2 (C67_exact _) W)). rewrite <- (proj1 (C67_exact _)), C67_address.
  intros (F & _). rewrite !Forall_cons_iff in F. destruct F as (_ & _ & (_ & _ & S & _) & _). auto.
Qed.
Print Assumptions C67_address_refuted.
(** A balance: its date and time are one moment. *)
Theorem C67_balance : forall neg f c d t with_time, valid (v_balance neg f c d t with_time) = Ok true <->
  money_ok f c /\ ~ (d = mkDate 1 1 1 /\ t = mkTod 0 0 0).
Proof.
  intros neg f c d t wt.
  assert (C : field_ok 1 (if neg then B "D" else B "C")) by (apply alnum_valid_spec; destruct neg; reflexivity).
  unfold v_balance, money_ok. destruct wt; group 5; rewrite !Forall_cons_iff, part_alnum, part_value, part_currency, ?part_moment, ?part_none;
    intuition; constructor.
Qed.
Print Assumptions C67_balance.
Example C67_balance_example : valid (v_balance true (FNum false 123 (B "4")) (B "EUR") (mkDate 2024 1 31) (mkTod 0 0 0) true) = Ok true /\
  valid (v_address (B "Mustermann") [] (B "Hauptstr.1") (B "10115") (B "Berlin") 280 [] [] []) = Ok true /\
  valid (v_communication 3 (B "banking.example.com") [] (B "MIM") 1) = Ok true /\ valid (v_security_method (B "DDV") [1; 2]) = Ok true /\
  valid (v_limit (B "E") (FNum false 1000 []) (B "EUR") 7) = Ok true.
Proof. repeat split; vm_compute; reflexivity. Qed.

(** ** Length *)
Fixpoint sum_parts (l : list (option velem)) : outcome Z :=
  match l with
  | [] => Ok 0
  | None :: r => sum_parts r
  | Some x :: r => do n <- length_v x; do m <- sum_parts r; Ok (n + m)
  end.
Fixpoint sum_each (l : list velem) : outcome Z :=
  match l with [] => Ok 0 | x :: r => do n <- length_v x; do m <- sum_each r; Ok (n + m) end.
Lemma length_group count needed es : length_v (VGroup count needed es) = sum_parts es.
Proof. simpl. induction es as [|[x|] es IH]; cbn [sum_parts]; [reflexivity| |exact IH]. now rewrite IH. Qed.
Lemma length_array min max es : length_v (VArray min max es) = sum_each es.
Proof. simpl. induction es as [|x es IH]; cbn [sum_each]; [reflexivity|]. now rewrite IH. Qed.

Lemma measured e : forall n, length_v e = Ok n <-> measures e n.
Proof.
  induction e as [e He|count needed es IH|min max es IH] using velem_induct; intros n.
  - destruct e; try contradiction; try (split; [cbn [length_v]; intros H; injection H as <-; constructor|inversion 1; subst; reflexivity]).
    + split.
      * cbn [length_v]. intros H. injection H as <-. constructor. apply float_length_exists.
      * inversion 1; subst. cbn [length_v]. f_equal. unfold len. symmetry. now apply float_length_spec.
    + split.
      * cbn [length_v]. intros H. injection H as <-. unfold len. rewrite bytes_v_length. constructor.
      * inversion 1; subst. cbn [length_v]. unfold len. now rewrite bytes_v_length.
    + split; [cbn [length_v]; intros H; injection H as <-|inversion 1; subst; now destruct b].
      destruct b; [exact (M_bool true)|exact (M_bool false)].
    + split; [easy|inversion 1].
    + split; [easy|inversion 1].
  - rewrite length_group. split.
    + intros H. constructor. revert n H. induction es as [|[x|] es IHes]; intros n; cbn [sum_parts].
      * intros H. injection H as <-. constructor.
      * destruct (length_v x) as [a| |] eqn:E; [|easy|easy]. destruct (sum_parts es) as [b| |]; [|easy|easy]. cbn [obind].
        intros H. injection H as <-. constructor; [apply IH; [now left|exact E]|]. apply IHes; [|reflexivity]. intros y Hy. apply IH. now right.
      * intros H. constructor. apply IHes; [|exact H]. intros y Hy. apply IH. now right.
    + intros M. inversion M as [| | | | | | | |? ? ? ? P|]; subst. clear M.
      revert n P. induction es as [|[x|] es IHes]; intros n P; inversion P; subst; cbn [sum_parts].
      * reflexivity.
      * rewrite (proj2 (IH x ltac:(now left) _) ltac:(eassumption)). cbn [obind].
        rewrite (IHes ltac:(intros y Hy; apply IH; now right) _ ltac:(eassumption)). reflexivity.
      * apply IHes; [intros y Hy; apply IH; now right|assumption].
  - rewrite length_array. split.
    + intros H. constructor. revert n H. induction es as [|x es IHes]; intros n; cbn [sum_each].
      * intros H. injection H as <-. constructor.
      * destruct (length_v x) as [a| |] eqn:E; [|easy|easy]. destruct (sum_each es) as [b| |]; [|easy|easy]. cbn [obind].
        intros H. injection H as <-. constructor; [apply IH; [now left|exact E]|]. apply IHes; [|reflexivity]. intros y Hy. apply IH. now right.
    + intros M. inversion M as [| | | | | | | | |? ? ? ? P]; subst. clear M.
      revert n P. induction es as [|x es IHes]; intros n P; inversion P; subst; cbn [sum_each].
      * reflexivity.
      * rewrite (proj2 (IH x ltac:(now left) _) ltac:(eassumption)). cbn [obind].
        rewrite (IHes ltac:(intros y Hy; apply IH; now right) _ ltac:(eassumption)). reflexivity.
Qed.
(** Length is the sum over the parts of what fmt prints for them.  (Elements with a date or a
    time are not covered: fmt's text for a moment is not modelled.) *)
Theorem C67_length : forall e n, length_v e = Ok n <-> measures e n.
Proof. exact measured. Qed.
Print Assumptions C67_length.
(** It is not the number of bytes sent: separators, escapes and the sizes of binaries are
    missing, and booleans and binaries are counted in another form. *)
Theorem C67_length_refuted : forall e w, In (e, w)
  [(v_bank (mkBank 280 (B "10050000")), B "280:10050000"); (VAlnum 9 (B "a+b"), B "a?+b");
   (VBool true, B "J"); (VBinary 9 (B "abc"), B "@3@abc")] ->
  exists n x, length_v e = Ok n /\ wire e = Some x /\ marshal_de x = Ok w /\ n <> Z.of_nat (List.length w).
Proof.
  intros e w H. simpl in H. repeat (destruct H as [H|H]; [injection H as <- <-; eexists; eexists; split; [vm_compute; reflexivity|];
    split; [reflexivity|]; split; [vm_compute; reflexivity|]; vm_compute; discriminate|]). contradiction.
Qed.
Print Assumptions C67_length_refuted.
Example C67_length_example : length_v (v_connection (mkAC (B "24290661") [] 280 (B "10050000"))) = Ok 19.
Proof. vm_compute. reflexivity. Qed.

(** ** VirtualDate.Valid, the other test: eight characters *)
Theorem C67_virtual_date : forall z, virtual_date_valid z = true <-> 10 ^ 7 <= z < 10 ^ 8 \/ - 10 ^ 7 < z <= - 10 ^ 6.
Proof.
  intros z. unfold virtual_date_valid, len.
  assert (A : forall m, valid_length (itoa z) m = (Z.of_nat (List.length (itoa z)) <=? m)) by reflexivity.
  pose proof (itoa_fits 8 z) as H8. pose proof (itoa_fits 7 z) as H7. rewrite A in H7, H8. unfold int_fits in H7, H8.
  change (10 ^ (8 - 1)) with 10000000 in H8. change (10 ^ 8) with 100000000 in *. change (10 ^ (7 - 1)) with 1000000 in H7.
  change (10 ^ 7) with 10000000 in *. change (10 ^ 6) with 1000000.
  rewrite Z.leb_le in H7, H8. rewrite Z.eqb_eq. lia.
Qed.
Print Assumptions C67_virtual_date.
Example C67_virtual_date_example : virtual_date_valid 20240131 = true /\ virtual_date_valid 99999999 = true /\ virtual_date_valid 131 = false.
Proof. repeat split; vm_compute; reflexivity. Qed.

(** The exponent in the text of an amount: a sign and at least two digits that give it. *)
Theorem C67_exponent : forall e, in_int64 e = true -> in_int64 (- e) = true ->
  exists s ds, exponent_v e = "e"%byte :: s :: ds /\ (2 <= List.length ds)%nat /\ (s = b_minus <-> e < 0) /\ atoi (s :: ds) = Ok e.
Proof.
  intros e H H'. unfold exponent_v. eexists. eexists. split; [reflexivity|]. unfold itoa, pad_left. replace (Z.abs e <? 0) with false by lia.
  split; [rewrite app_length, repeat_length; lia|]. destruct (Z.ltb_spec e 0) as [Hn|Hn].
  - split; [split; [intros _; exact Hn|reflexivity]|]. unfold atoi. rewrite beq_refl, (atoi_digits_pad _ _ _ (atoi_digits_itoa _)).
    replace (- Z.of_N (Z.to_N (Z.abs e))) with e by lia. cbv zeta. now rewrite H.
  - split; [split; [intros K; discriminate K|lia]|]. unfold atoi. change (beq "+"%byte b_minus) with false. change (beq "+"%byte b_plus) with true. cbv iota.
    rewrite (atoi_digits_pad _ _ _ (atoi_digits_itoa _)). replace (Z.of_N (Z.to_N (Z.abs e))) with e by lia. cbv zeta. now rewrite H.
Qed.
Print Assumptions C67_exponent.
Example C67_exponent_meets : exponent_v (-7) = B "e-07" /\ exponent_v 123 = B "e+123" /\ in_int64 (-7) = true /\ in_int64 7 = true.
Proof. repeat split. Qed.
