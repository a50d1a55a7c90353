(** * C67: what IsValid says about data elements *)
From Coq Require Import Lia ZifyBool ZifyNat ZifyN Permutation Sorted.
From Verif Require Import Base BaseFacts Lexer_Model Codec_Model Codec_Proofs Wire_Model Time_Model Seg_Model Seg_Facts Request_Model
  Key_Model Valid_Model Valid_Spec Valid_Facts.
Open Scope Z_scope.

(** ** The rules *)

(** IsValid says true for exactly the elements the rules accept, of any size and depth; and
    it answers unless a part lacks the element it embeds. *)
Theorem C67_exact : forall e,
  (valid e = Ok true <-> acceptable e) /\ (whole e -> valid e <> Panic /\ (valid e = Ok false <-> ~ acceptable e)).
Proof.
  intros e. split; [apply valid_acceptable|]. intros W. destruct (valid_total e W) as (b & E).
  rewrite <- valid_acceptable, E. split; [easy|]. destruct b; split; congruence.
Qed.
Print Assumptions C67_exact.

(** Every element a constructor makes is whole. *)
Ltac whole_tac :=
  repeat first
    [ apply W_basic; exact I
    | apply W_group; simpl; intros ? HIn; repeat (destruct HIn as [HIn|HIn]; [try discriminate HIn; injection HIn as <-|]); try contradiction
    ].
Theorem C67_constructed : forall b a i f c neg d t with_time s1 s2 s3 s4 s5 s6 s7 s8 z1 z2 z3 ref ps limit jobs zs,
  Forall whole [v_amount f c; v_bank b; v_connection a; v_intl i; v_balance neg f c d t with_time;
    v_address s1 s2 s3 s4 s5 z1 s6 s7 s8; v_header s1 z1 z2 ref; v_reference s1 z1; v_params ps; v_ack z1 s1 s2 ps;
    v_security_id s1; v_security_date (d, t); v_hash; v_sig_algorithm; v_key_name b s1 s2 z1 z2; v_profile z1;
    v_enc_algorithm s1 s2; v_pin_tan z1 z2 s1 s2; v_public_key s1 s2; v_certificate z1 s1; v_communication z1 s1 s2 s3 z3;
    v_limit s1 f c z1; v_transaction s1 z1 limit; v_pin_jobs jobs; v_versions zs; v_security_method s1 zs].
Proof.
  intros.
  assert (WB : forall b, whole (v_bank b)) by (intros; unfold v_bank; whole_tac).
  assert (WP : forall ps, whole (v_params ps)).
  { intros l. apply W_array. intros x Hx. apply in_map_iff in Hx. destruct Hx as (p & <- & _). now apply W_basic. }
  assert (WV : forall zs, whole (v_versions zs)).
  { intros l. apply W_array. intros x Hx. apply in_map_iff in Hx. destruct Hx as (p & <- & _). now apply W_basic. }
  assert (WA : forall f c, whole (v_amount f c)) by (intros; unfold v_amount; whole_tac).
  repeat apply Forall_cons; try apply Forall_nil; auto.
  - unfold v_connection; whole_tac.
  - unfold v_intl; whole_tac; auto.
  - unfold v_balance; destruct with_time; whole_tac.
  - unfold v_address; whole_tac.
  - unfold v_header; destruct ref; whole_tac.
  - unfold v_reference; whole_tac.
  - unfold v_ack; whole_tac; auto.
  - unfold v_security_id; whole_tac.
  - unfold v_security_date; whole_tac.
  - unfold v_hash; whole_tac.
  - unfold v_sig_algorithm; whole_tac.
  - unfold v_key_name; whole_tac; auto.
  - unfold v_profile; whole_tac.
  - unfold v_enc_algorithm; whole_tac.
  - unfold v_pin_tan; destruct s2; whole_tac.
  - unfold v_public_key; whole_tac.
  - unfold v_certificate; whole_tac.
  - unfold v_communication; whole_tac.
  - unfold v_limit; whole_tac; auto.
  - unfold v_transaction; destruct limit as [[[[k g] cu] dy]|]; whole_tac; auto.
  - apply W_array. intros x Hx. apply in_map_iff in Hx. destruct Hx as ([p q] & <- & _). whole_tac.
  - unfold v_security_method; whole_tac; auto.
Qed.
Print Assumptions C67_constructed.

(** A part without its element, as reading leaves it, makes IsValid panic. *)
Theorem C67_read_panics_refuted :
  (forall w r, unmarshal_bank w = Ok r -> valid (read_bank r) = Panic) /\
  (forall w e, unmarshal_intl w = Ok e -> (exists v, read_intl w = Ok v /\
     (ie_bank e <> None -> (forall x, In (Some x) [ie_iban e; ie_bic e; ie_account e; ie_sub e] -> unbroken x) -> valid v = Panic))) /\
  (forall w, unmarshal_int w = Err -> valid (read_country w) = Panic).
Proof.
  split; [|split].
  - reflexivity.
  - intros w e E. unfold read_intl. rewrite E. simpl omap. eexists. split; [reflexivity|].
    intros Hb Hu. destruct e as [iban bic acc sub bank]. cbn [ie_iban ie_bic ie_account ie_sub ie_bank] in *. destruct bank as [bk|]; [|easy].
    rewrite valid_group. simpl forallb. cbv iota. change (5 =? Z.of_nat (List.length _)) with true. cbv iota.
    assert (A : forall v : bytes, unbroken v -> valid (VAlnum (len v) v) = Ok true).
    { intros v U. simpl. f_equal. apply alnum_valid_spec. split; [unfold fits, len; lia|exact U]. }
    destruct iban as [v1|], bic as [v2|], acc as [v3|], sub as [v4|]; simpl option_map; cbn [every]; rewrite ?A by (apply Hu; simpl; auto 6);
      cbn [obind]; rewrite ?A by (apply Hu; simpl; auto 6); cbn [obind]; rewrite ?A by (apply Hu; simpl; auto 6); cbn [obind];
      rewrite ?A by (apply Hu; simpl; auto 6); reflexivity.
  - intros w E. unfold read_country. now rewrite E.
Qed.
Print Assumptions C67_read_panics_refuted.
Example C67_read_panics_example : unmarshal_bank (B "280:10050000") = Ok (Some 280, B "10050000") /\
  (exists e, unmarshal_intl (B "DE02:BIC:1::280:10050000") = Ok e /\ ie_bank e <> None) /\ unmarshal_int (B "DE") = Err.
Proof. split; [vm_compute; reflexivity|]. split; [|vm_compute; reflexivity]. eexists. split; [vm_compute; reflexivity|discriminate]. Qed.

(** ** Groups made from the caller's values *)
Definition field_ok (max : Z) (v : bytes) : Prop := fits max v /\ unbroken v.
Definition part_ok (o : option velem) : Prop := match o with Some x => valid x = Ok true | None => True end.
Lemma group_iff needed es : forallb (present es) needed = true ->
  (valid (VGroup (Z.of_nat (List.length es)) needed es) = Ok true <-> Forall part_ok es).
Proof.
  intros N. rewrite valid_group, N, Z.eqb_refl, every_true, Forall_forall. split.
  - intros H [x|] I; [now apply H|exact Logic.I].
  - intros H x I. exact (H (Some x) I).
Qed.
Lemma part_alnum max v : part_ok (Some (VAlnum max v)) <-> field_ok max v.
Proof. unfold part_ok, field_ok. rewrite <- alnum_valid_spec. simpl. split; congruence. Qed.
Lemma part_int p max z : part_ok (Some (VInt p max z)) <-> int_fits max z.
Proof. unfold part_ok. rewrite <- itoa_fits. simpl. split; congruence. Qed.
Lemma part_none : part_ok None <-> True.
Proof. easy. Qed.
Lemma int3 z : int_fits 3 z <-> -99 <= z <= 999.
Proof. unfold int_fits. simpl. lia. Qed.
Lemma int4 z : int_fits 4 z <-> -999 <= z <= 9999.
Proof. unfold int_fits. simpl. lia. Qed.
Ltac group es_len := match goal with |- valid (VGroup _ ?n ?es) = Ok true <-> _ => rewrite (group_iff n es eq_refl : valid (VGroup es_len n es) = Ok true <-> _) end.

(** Bank, account and key references, segment headers and message references: every text at
    most as long as the constructor says and without line ends, spaces and &, every number
    with at most so many characters. *)
Theorem C67_bank : forall b, valid (v_bank b) = Ok true <-> -99 <= bank_country b <= 999 /\ field_ok 30 (bank_code b).
Proof.
  intros b. unfold v_bank, new_country. group 2. rewrite !Forall_cons_iff, part_int, part_alnum, int3.
  intuition; try constructor.
Qed.
Theorem C67_connection : forall a, valid (v_connection a) = Ok true <->
  field_ok 30 (ac_account a) /\ field_ok 30 (ac_sub a) /\ -99 <= ac_country a <= 999 /\ field_ok 30 (ac_bank a).
Proof.
  intros a. unfold v_connection, new_id, new_country. group 4. rewrite !Forall_cons_iff, part_int, !part_alnum, int3.
  intuition; try constructor.
Qed.
Theorem C67_intl : forall a, valid (v_intl a) = Ok true <->
  field_ok 34 (ic_iban a) /\ field_ok 11 (ic_bic a) /\ field_ok 30 (ic_account a) /\ field_ok 30 (ic_sub a) /\
  -99 <= bank_country (ic_bank a) <= 999 /\ field_ok 30 (bank_code (ic_bank a)).
Proof.
  intros a. unfold v_intl, new_id. group 5. rewrite !Forall_cons_iff, !part_alnum.
  change (part_ok (Some (v_bank (ic_bank a)))) with (valid (v_bank (ic_bank a)) = Ok true). rewrite C67_bank. intuition; try constructor.
Qed.
Theorem C67_header : forall id pos version ref, valid (v_header id pos version ref) = Ok true <->
  field_ok 6 id /\ -99 <= pos <= 999 /\ -99 <= version <= 999 /\ (forall r, ref = Some r -> -99 <= r <= 999).
Proof.
  intros id pos version ref. unfold v_header, new_number. destruct ref as [r|]; simpl option_map; group 4.
  - rewrite !Forall_cons_iff, !part_int, part_alnum, !int3. split.
    + intros (A & B & C & D & _). split; [exact A|]. split; [lia|]. split; [lia|]. intros ? E; injection E as <-; lia.
    + intros (A & B & C & D). specialize (D r eq_refl). repeat split; try apply A; try lia. constructor.
  - rewrite !Forall_cons_iff, !part_int, part_alnum, part_none, !int3. split.
    + intros (A & B & C & _). split; [exact A|]. split; [lia|]. split; [lia|]. easy.
    + intros (A & B & C & _). repeat split; try apply A; try lia. constructor.
Qed.
Theorem C67_reference : forall dialog number, valid (v_reference dialog number) = Ok true <->
  field_ok 30 dialog /\ -999 <= number <= 9999.
Proof.
  intros. unfold v_reference, new_id, new_number. group 2. rewrite !Forall_cons_iff, part_int, part_alnum, int4. intuition; try constructor.
Qed.
Theorem C67_key_name : forall b user type_ number version, valid (v_key_name b user type_ number version) = Ok true <->
  (-99 <= bank_country b <= 999 /\ field_ok 30 (bank_code b)) /\ field_ok 30 user /\ field_ok 1 type_ /\
  -99 <= number <= 999 /\ -99 <= version <= 999.
Proof.
  intros. unfold v_key_name, new_id, new_number. group 5. rewrite !Forall_cons_iff, !part_int, !part_alnum, !int3.
  change (part_ok (Some (v_bank b))) with (valid (v_bank b) = Ok true). rewrite C67_bank. intuition; try constructor.
Qed.
(** A PIN with its TAN: a missing TAN is fine. *)
Theorem C67_pin : forall pm tm pin tan, valid (v_pin_tan pm tm pin tan) = Ok true <-> field_ok pm pin /\ (tan = [] \/ field_ok tm tan).
Proof.
  intros. unfold v_pin_tan. destruct tan as [|c r]; group 2; rewrite !Forall_cons_iff, ?part_alnum, ?part_none.
  - split; [intros (A & _); auto|intros (A & _); repeat split; try apply A; constructor].
  - split; [intros (A & B & _); auto|intros (A & [B|B]); [easy|]]. repeat split; try apply A; try apply B; constructor.
Qed.
(** An acknowledgement is valid with exactly ten parameters. *)
Theorem C67_acknowledgement : forall code reference text_ ps, valid (v_ack code reference text_ ps) = Ok true <->
  -999 <= code <= 9999 /\ field_ok 7 reference /\ field_ok 80 text_ /\ List.length ps = 10%nat /\ Forall (field_ok 35) ps.
Proof.
  intros. unfold v_ack. group 4. rewrite !Forall_cons_iff, part_int, !part_alnum, int4.
  assert (P : part_ok (Some (v_params ps)) <-> List.length ps = 10%nat /\ Forall (field_ok 35) ps).
  { unfold part_ok, v_params. rewrite valid_array, map_length.
    destruct ((Z.of_nat (List.length ps) <? 10) || (10 <? Z.of_nat (List.length ps))) eqn:E.
    - split; [easy|]. intros (L & _). rewrite L in E. easy.
    - rewrite each_true, Forall_forall. split.
      + intros H. split; [lia|]. intros p Hp. apply part_alnum. apply H. now apply in_map.
      + intros (_ & H) x Hx. apply in_map_iff in Hx. destruct Hx as (p & <- & Hp). apply (part_alnum 35 p), H, Hp. }
  rewrite P. intuition; try constructor.
Qed.
Print Assumptions C67_bank.
Print Assumptions C67_connection.
Print Assumptions C67_intl.
Print Assumptions C67_header.
Print Assumptions C67_reference.
Print Assumptions C67_key_name.
Print Assumptions C67_pin.
Print Assumptions C67_acknowledgement.
Example C67_groups_example :
  valid (v_connection (mkAC (B "24290661") [] 280 (B "10050000"))) = Ok true /\
  valid (v_connection (mkAC (B "2429 0661") [] 280 (B "10050000"))) = Ok false /\
  valid (v_header (B "HKIDN") 3 2 None) = Ok true /\ valid (v_header (B "HKIDN") 1000 2 None) = Ok false /\
  valid (v_pin_tan 6 35 (B "12345") []) = Ok true /\ valid (v_pin_tan 6 35 (B "1234567") []) = Ok false /\
  valid (v_ack 10 [] (B "ok") (repeat [] 10)) = Ok true /\ valid (v_ack 10 [] (B "ok") []) = Ok false.
Proof. repeat split; vm_compute; reflexivity. Qed.
(** An acknowledgement as a bank sends it, with fewer parameters or a text of several words,
    is never valid. *)
Theorem C67_acknowledgement_refuted : forall code reference text_ ps,
  (List.length ps < 10)%nat \/ In " "%byte text_ -> valid (v_ack code reference text_ ps) = Ok false.
Proof.
  intros code reference text_ ps H.
  assert (W : whole (v_ack code reference text_ ps)).
  { unfold v_ack. whole_tac. apply W_array. intros x Hx. apply in_map_iff in Hx. destruct Hx as (p & <- & _). now apply W_basic. }
  apply (proj2 (proj2 (C67_exact _) W)). rewrite <- (proj1 (C67_exact _)), C67_acknowledgement.
  intros (_ & _ & (_ & _ & S & _) & L & _). destruct H as [H|H]; [lia|auto].
Qed.
Print Assumptions C67_acknowledgement_refuted.

(** ** Texts: the documentation excludes line ends only; IsValid also refuses spaces and &,
    and measures bytes of the Go string, not what is sent. *)
Theorem C67_text_refuted :
  (exists v max, one_line v /\ fits max v /\ valid (VAlnum max v) = Ok false) /\
  (exists max v w, valid (VAlnum max v) = Ok true /\ marshal_elem (EText v) = Ok w /\ ~ fits max w) /\
  (exists max v w, valid (VAlnum max v) = Ok false /\ marshal_elem (EText v) = Ok w /\ fits max w /\ one_line w).
Proof.
  split; [|split].
  - exists (B "Erika Mustermann"), 35. split; [|split].
    + unfold one_line. split; intros H; vm_compute in H; repeat (destruct H as [H|H]; [discriminate H|]); exact H.
    + vm_compute. discriminate.
    + vm_compute. reflexivity.
  - exists 3, (B "a+b"), (B "a?+b"). split; [|split]; [vm_compute; reflexivity|vm_compute; reflexivity|]. vm_compute. congruence.
  - exists 1, (to_utf8 ["228"%byte]), ["228"%byte]. split; [|split; [|split]].
    + vm_compute. reflexivity.
    + vm_compute. reflexivity.
    + vm_compute. discriminate.
    + unfold one_line. split; intros H; vm_compute in H; repeat (destruct H as [H|H]; [discriminate H|]); exact H.
Qed.
Print Assumptions C67_text_refuted.

(** ** Numbers: IsValid holds exactly if what is sent has at most the maximal length; digits
    are sent with exactly this length then. *)
Theorem C67_numbers : forall max z,
  (exists w, marshal_elem (ENumber z) = Ok w /\ (valid (VInt false max z) = Ok true <-> fits max w)) /\
  (1 <= max -> exists w, marshal_elem (EDigit (Z.to_nat max) z) = Ok w /\
     (valid (VInt true max z) = Ok true <-> Z.of_nat (List.length w) = max) /\ max <= Z.of_nat (List.length w)).
Proof.
  intros max z. split.
  - exists (itoa z). split; [apply to_latin1_ascii|].
    + unfold itoa. destruct (z <? 0).
      * change (ascii (b_minus :: itoa_N (Z.to_N (- z)))) with (ascii (itoa_N (Z.to_N (- z)))). apply digits_ascii, itoa_N_digits.
      * apply digits_ascii, itoa_N_digits.
    + simpl. unfold valid_length, fits. rewrite <- Z.leb_le. split; congruence.
  - intros M. exists (itoa_pad (Z.to_nat max) z). split; [apply to_latin1_ascii, itoa_pad_ascii|].
    simpl valid. unfold valid_length, itoa, itoa_pad, pad_left. destruct (z <? 0); cbn [List.length]; rewrite app_length, repeat_length.
    + split; [|lia]. split; [intros H; injection H as H; lia|intros H; f_equal; lia].
    + split; [|lia]. split; [intros H; injection H as H; lia|intros H; f_equal; lia].
Qed.
Print Assumptions C67_numbers.
Example C67_numbers_example : valid (VInt true 3 280) = Ok true /\ valid (VInt true 3 1000) = Ok false /\ valid (VInt false 4 (-5)) = Ok true.
Proof. repeat split; vm_compute; reflexivity. Qed.

(** ** Booleans and binary data: the text that is measured is fmt's, "true" or "[1 2 3]". *)
Theorem C67_boolean_refuted :
  (forall b, valid (VBool b) = Ok false) /\ (forall w e, read_bool w = Ok e -> valid e = Ok false) /\
  (forall jobs, jobs <> [] -> valid (v_pin_jobs jobs) = Ok false).
Proof.
  assert (A : forall b, valid (VBool b) = Ok false) by (intros []; reflexivity). split; [exact A|]. split.
  - unfold read_bool. intros w e H. destruct (unmarshal_bool w); [|easy|easy]. injection H as <-. apply A.
  - intros [|[id b] r] H; [easy|]. unfold v_pin_jobs. rewrite valid_array, map_length, Z.ltb_irrefl. simpl orb. cbv iota.
    cbn [map each]. rewrite valid_group. simpl forallb. cbv iota. change (2 =? Z.of_nat _) with true. cbv iota. cbn [every].
    destruct (valid_total (VAlnum 6 (fst (id, b))) ltac:(now apply W_basic)) as (v & ->). cbn [obind].
    destruct v; [|reflexivity]. rewrite A. reflexivity.
Qed.
Print Assumptions C67_boolean_refuted.
Theorem C67_binary_refuted :
  (forall max d, valid (VBinary max d) = Ok true -> 2 * Z.of_nat (List.length d) + 1 <= max) /\
  (forall w e, read_binary w = Ok e -> valid e = Ok false /\
     exists d, unmarshal_binary w = Ok d /\ e = VBinary (Z.of_nat (List.length d)) d) /\
  (exists d, Z.of_nat (List.length d) = 16 /\ valid (VBinary 16 d) = Ok false).
Proof.
  assert (L : forall d, 2 * Z.of_nat (List.length d) <= listing d).
  { induction d as [|b d IH]; [simpl; lia|]. cbn [listing List.length]. assert (1 <= digits_of b) by (unfold digits_of; destruct (Byte.to_N b <? 10)%N, (Byte.to_N b <? 100)%N; lia). lia. }
  assert (A : forall d, 2 * Z.of_nat (List.length d) + 1 <= listing_length d).
  { intros d. unfold listing_length. destruct d as [|b d]; [simpl; lia|]. specialize (L (b :: d)). lia. }
  split; [|split].
  - intros max d H. apply valid_acceptable in H. inversion H; subst. specialize (A d). lia.
  - unfold read_binary. intros w e H. destruct (unmarshal_binary w) as [d| |]; [|easy|easy]. injection H as <-.
    split; [|now exists d]. cbn [valid]. f_equal. unfold valid_length. rewrite bytes_v_length. specialize (A d). unfold len. lia.
  - exists (repeat "000"%byte 16). split; vm_compute; reflexivity.
Qed.
Print Assumptions C67_binary_refuted.
Example C67_binary_example : valid (VBinary 512 (repeat "000"%byte 8)) = Ok true /\ valid (v_enc_algorithm (repeat "000"%byte 8) (B "5")) = Ok true /\
  (exists e, read_binary (B "@2@ab") = Ok e) /\ (exists e, read_bool (B "J") = Ok e).
Proof. split; [vm_compute; reflexivity|]. split; [vm_compute; reflexivity|]. split; eexists; vm_compute; reflexivity. Qed.

(** ** Codes: everything up to the greatest member counts as one; the caller's slice is
    sorted. *)
Theorem C67_code : forall set max v,
  (valid (fst (new_code v max set)) = Ok true <-> (exists c, In c set /\ before v c) /\ field_ok max v) /\
  (In v set -> field_ok max v -> valid (fst (new_code v max set)) = Ok true) /\
  Permutation set (snd (new_code v max set)) /\ StronglySorted before (snd (new_code v max set)).
Proof.
  intros set max v. unfold new_code, fst, snd. destruct (sort_spec set) as [P S].
  assert (E : valid (VCode set max v) = Ok true <-> (exists c, In c set /\ before v c) /\ field_ok max v).
  { rewrite valid_acceptable. split.
    - intros H. inversion H; subst. split; [eauto|split; assumption].
    - intros [(c & I & B) [F U]]. econstructor; eauto. }
  split; [exact E|]. split; [|split; assumption].
  intros I F. apply E. split; [|exact F]. exists v. split; [exact I|apply before_refl].
Qed.
Print Assumptions C67_code.
Theorem C67_code_refuted :
  (exists v, ~ In v [B "1"; B "2"; B "999"] /\ valid (fst (new_code v 3 [B "1"; B "2"; B "999"])) = Ok true) /\
  (exists set, snd (new_code (B "1") 3 set) <> set) /\
  (forall w, valid (read_code w) = Ok false).
Proof.
  split; [|split].
  - exists (B "3"). split; [|vm_compute; reflexivity]. intros H. vm_compute in H. repeat (destruct H as [H|H]; [discriminate H|]). exact H.
  - exists [B "2"; B "1"]. vm_compute. discriminate.
  - reflexivity.
Qed.
Print Assumptions C67_code_refuted.
Example C67_code_example : valid (fst (new_code (B "2") 3 [B "999"; B "1"; B "2"])) = Ok true /\
  snd (new_code (B "2") 3 [B "999"; B "1"; B "2"]) = [B "1"; B "2"; B "999"] /\
  valid (fst (new_code (B "9999") 4 [B "999"; B "1"; B "2"])) = Ok false.
Proof. repeat split; vm_compute; reflexivity. Qed.

(** ** Amounts: in the range without an exponent the measured text and what is sent differ
    by the comma behind whole numbers at most; outside they have nothing to do with each
    other. *)
Theorem C67_amount : forall max i frac, (1 <= i < 10 ^ 6)%N -> forallb is_digit frac = true ->
  exists w, marshal_elem (EFloat (FNum false i frac)) = Ok w /\
  (valid (VFloat max (FNum false i frac)) = Ok true <-> Z.of_nat (List.length w) <= max + match frac with [] => 1 | _ => 0 end).
Proof.
  intros max i frac Hi Hf. exists (itoa_N i ++ b_comma :: frac). split.
  - unfold marshal_elem, marshal_float. rewrite money_string by assumption. apply to_latin1_ascii, money_ascii, Hf.
  - assert (V : float_v (FNum false i frac) = format_float (FNum false i frac)).
    { unfold float_v. destruct (itoa_N_spec i) as (N1 & N2 & N3 & _ & N5).
      assert (Ni : i <> 0%N) by lia.
      pose proof (proj2 (itoa_N_digits_exact i 6 ltac:(lia)) ltac:(lia)) as L6.
      destruct (itoa_N i) as [|d r] eqn:Ei; [easy|]. specialize (N5 Ni d r eq_refl).
      cbv zeta. rewrite <- app_comm_cons, zeros_stop by exact N5.
      destruct (rev (zeros (rev (d :: r ++ frac)))) as [|x xs] eqn:R.
      - exfalso. destruct (zeros_split (rev (d :: r ++ frac))) as (a & E & _).
        assert (E' : zeros (rev (d :: r ++ frac)) = []) by (rewrite <- (rev_involutive (zeros _)), R; reflexivity).
        rewrite E', app_nil_r in E. assert (I : In d (rev (d :: r ++ frac))) by (apply -> in_rev; now left).
        rewrite E in I. apply repeat_spec in I. easy.
      - replace (Z.of_nat (List.length (d :: r)) - (Z.of_nat (List.length (d :: r ++ frac)) - Z.of_nat (List.length (d :: r ++ frac))) - 1)
          with (Z.of_nat (List.length r)) by (cbn [List.length]; lia).
        cbn [List.length] in L6. replace ((Z.of_nat (List.length r) <? -4) || (6 <=? Z.of_nat (List.length r))) with false by lia. reflexivity. }
    cbn [valid]. unfold valid_length. rewrite V. unfold format_float. cbn [app]. rewrite !app_length.
    destruct frac; cbn [List.length]; (split; [intros H; injection H as H; lia|intros H; f_equal; lia]).
Qed.
Print Assumptions C67_amount.
Theorem C67_amount_refuted :
  (exists f w, valid (new_value f) = Ok true /\ marshal_elem (EFloat f) = Ok w /\ Z.of_nat (List.length w) = 22) /\
  (exists f w, valid (new_value f) = Ok false /\ marshal_elem (EFloat f) = Ok w /\ Z.of_nat (List.length w) = 14).
Proof.
  split.
  - exists (FNum false (10 ^ 20) []), (itoa_N (10 ^ 20) ++ [b_comma]). repeat split; vm_compute; reflexivity.
  - exists (FNum false 1234567 (B "891234")), (B "1234567,891234"). repeat split; vm_compute; reflexivity.
Qed.
Print Assumptions C67_amount_refuted.
Example C67_amount_example : valid (new_value (FNum false 1234 (B "56"))) = Ok true /\ float_v (FNum false 1234567 (B "5")) = B "1.2345675e+06" /\
  float_v (FNum false 0 (B "00005")) = B "5e-05" /\ float_v (FNum true 0 (B "05")) = B "-0.05" /\ float_v (FNum false 1000000 []) = B "1e+06".
Proof. repeat split; vm_compute; reflexivity. Qed.

(** ** Elements that were read: the maximal length is the length read *)
Lemma atoi_ascii s z : atoi s = Ok z -> ascii s = true /\ (List.length (itoa z) <= List.length s)%nat.
Proof.
  unfold atoi. destruct s as [|c r]; [easy|].
  assert (D : forall ds n, atoi_digits ds = Some n -> ascii ds = true /\ (List.length (itoa_N n) <= List.length ds)%nat).
  { intros ds n. unfold atoi_digits. destruct ds as [|a ds]; [easy|]. destruct (forallb is_digit (a :: ds)) eqn:F; [|easy].
    intros H. injection H as <-. split; [now apply digits_ascii|]. apply itoa_N_length; [now apply dec_val_bound|simpl; lia]. }
  assert (Z0 : forall n neg, in_int64 (if neg : bool then - Z.of_N n else Z.of_N n) = true ->
    (List.length (itoa (if neg then - Z.of_N n else Z.of_N n)) <= (if neg then 1 else 0) + List.length (itoa_N n))%nat).
  { intros n neg _. unfold itoa. destruct neg.
    - destruct (Z.ltb_spec (- Z.of_N n) 0); [replace (Z.to_N (- - Z.of_N n)) with n by lia; simpl; lia|].
      replace (Z.to_N (- Z.of_N n)) with n by lia. lia.
    - destruct (Z.ltb_spec (Z.of_N n) 0); [lia|]. rewrite N2Z.id. lia. }
  destruct (beq_spec c b_minus) as [->|_].
  - destruct (atoi_digits r) as [n|] eqn:E; [|easy]. destruct (D r n E) as [A L]. destruct (in_int64 (- Z.of_N n)) eqn:R; [|easy].
    intros H. injection H as <-. specialize (Z0 n true R). cbv beta iota in Z0. cbn [List.length]. split; [exact A|]. lia.
  - destruct (beq_spec c b_plus) as [->|_].
    + destruct (atoi_digits r) as [n|] eqn:E; [|easy]. destruct (D r n E) as [A L]. destruct (in_int64 (Z.of_N n)) eqn:R; [|easy].
      intros H. injection H as <-. specialize (Z0 n false R). cbv beta iota in Z0. cbn [List.length]. split; [exact A|]. lia.
    + destruct (atoi_digits (c :: r)) as [n|] eqn:E; [|easy]. destruct (D _ n E) as [A L]. destruct (in_int64 (Z.of_N n)) eqn:R; [|easy].
      intros H. injection H as <-. specialize (Z0 n false R). cbv beta iota in Z0. split; [exact A|]. lia.
Qed.
Theorem C67_read : forall w,
  valid (read_text w) = Ok true /\
  (valid (read_alnum w) = Ok true <-> unbroken (unmarshal_text w)) /\
  (forall padded e, read_int padded w = Ok e -> valid e = Ok true) /\
  (valid (read_currency w) = Ok true <-> List.length (unmarshal_text w) = 3%nat) /\
  (forall d, unmarshal_date w = Ok d -> exists e, read_date w = Ok e /\ (valid e = Ok true <-> d <> mkDate 1 1 1)) /\
  (forall e, read_time w = Ok e -> valid e = Ok true).
Proof.
  intros w. split; [|split; [|split; [|split; [|split]]]].
  - unfold read_text. cbn [valid]. f_equal. unfold valid_length, len. lia.
  - unfold read_alnum. rewrite (part_alnum (len (unmarshal_text w)) (unmarshal_text w) : _ = Ok true <-> _). unfold field_ok.
    split; [tauto|]. intros U. split; [unfold fits, len; lia|exact U].
  - intros padded e H. unfold read_int in H. destruct (unmarshal_int w) as [z| |] eqn:E; [|easy|easy]. injection H as <-.
    unfold unmarshal_int in E. destruct (atoi_ascii _ _ E) as [A L].
    assert (W : to_utf8 w = w).
    { assert (X := latin1_utf8 w). rewrite to_latin1_ascii in X by exact A. congruence. }
    rewrite W in L. cbn [valid]. f_equal. unfold valid_length, len. lia.
  - rewrite valid_acceptable. unfold read_currency. split; [now inversion 1|now constructor].
  - intros d E. unfold read_date. rewrite E. eexists. split; [reflexivity|]. rewrite valid_acceptable. split.
    + intros H. inversion H as [| | | | | | |? ? ? N| |]; subst. intros ->. now apply N.
    + intros N. constructor. now intros [-> _].
  - intros e H. unfold read_time in H. destruct (unmarshal_time w); [|easy|easy]. injection H as <-. reflexivity.
Qed.
Print Assumptions C67_read.
Example C67_read_example : valid (read_alnum (B "10050000")) = Ok true /\ valid (read_alnum (B "Order executed")) = Ok false /\
  (exists e, read_int true (B "0020") = Ok e) /\ (exists e, read_date (B "20240131") = Ok e /\ valid e = Ok true) /\
  (exists e, read_date (B "00010101") = Ok e /\ valid e = Ok false) /\ (exists e, read_time (B "000000") = Ok e).
Proof.
  split; [vm_compute; reflexivity|]. split; [vm_compute; reflexivity|]. split; [eexists; vm_compute; reflexivity|].
  split; [eexists; split; vm_compute; reflexivity|]. split; [eexists; split; vm_compute; reflexivity|]. eexists; vm_compute; reflexivity.
Qed.

(** ** Sending does not ask IsValid: the elements are the ones that requests are made of, and
    invalid ones are sent like valid ones. *)
Theorem C67_sent :
  (forall b, wire (v_bank b) = bank_de b) /\ (forall a, wire (v_connection a) = connection_de a) /\ (forall a, wire (v_intl a) = intl_de a) /\
  (forall s, wire (v_security_id s) = security_id_de s) /\ (forall m, wire (v_security_date m) = security_date_de m) /\
  wire v_hash = hash_de /\ wire v_sig_algorithm = sig_algorithm_de /\
  (forall st t, wire (v_key_name (st_bank st) (st_user st) t 0 0) = key_name_de st t) /\
  wire (v_enc_algorithm (repeat b_nul 8) (B "5")) = enc_algorithm_de /\ (forall pin, wire (v_pin_tan 99 99 pin []) = pin_tan_de pin) /\
  (forall id pos version ref, wire (v_header id pos version ref) = Some (segment_header id pos version ref)).
Proof.
  repeat split; try reflexivity. intros id pos version [r|]; reflexivity.
Qed.
Print Assumptions C67_sent.
Theorem C67_sent_refuted : exists a e t, valid (v_connection a) = Ok false /\ wire (v_connection a) = Some e /\ marshal_de e = Ok t.
Proof.
  exists (mkAC (repeat "7"%byte 31) [] 1000 (B "100 500 00")). eexists. eexists.
  split; [vm_compute; reflexivity|]. split; [reflexivity|]. vm_compute. reflexivity.
Qed.
Print Assumptions C67_sent_refuted.
