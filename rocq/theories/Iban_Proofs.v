(** * Lemmas about IBANs *)
From Coq Require Import Lia ZifyBool ZifyNat ZifyN.
From Verif Require Import Base BaseFacts Lexer_Model Iban_Model Iban_Spec.
Open Scope Z_scope.
Ltac Zify.zify_post_hook ::= Z.div_mod_to_equations.

Ltac sweep P c := pose proof (byte_sweep P ltac:(vm_compute; reflexivity) c) as SW; unfold P in SW; cbv beta in SW; clear P.

(** ** Characters *)
Lemma transform_digit c : is_digit c = true -> transform_byte c = [c].
Proof.
  intros H. set (P := fun c => negb (is_digit c) || bytes_eqb (transform_byte c) [c]). sweep P c.
  rewrite H in SW. cbn [negb orb] in SW. destruct (bytes_eqb_spec (transform_byte c) [c]); congruence.
Qed.
Definition two_digits (l : bytes) (z : Z) : bool :=
  match l with
  | [a; b] => is_digit a && is_digit b && (Z.of_N (10 * digit_val a + digit_val b)%N =? z)
  | _ => false
  end.
Lemma two_digits_spec l z : two_digits l z = true ->
  exists a b, l = [a; b] /\ is_digit a = true /\ is_digit b = true /\ Z.of_N (10 * digit_val a + digit_val b)%N = z.
Proof.
  unfold two_digits. destruct l as [|a [|b [|c l]]]; try discriminate. intros H. exists a, b.
  apply andb_prop in H. destruct H as [H H3]. apply andb_prop in H. destruct H as [H1 H2]. rewrite Z.eqb_eq in H3. auto.
Qed.
Lemma transform_upper c : is_upper c = true -> two_digits (transform_byte c) (value c) = true.
Proof.
  intros H. set (P := fun c => negb (is_upper c) || two_digits (transform_byte c) (value c)). sweep P c.
  rewrite H in SW. exact SW.
Qed.
Lemma transform_digits c : forallb is_digit (transform_byte c) = is_digit c || is_upper c.
Proof.
  set (P := fun c => Bool.eqb (forallb is_digit (transform_byte c)) (is_digit c || is_upper c)). sweep P c.
  apply Bool.eqb_prop. exact SW.
Qed.
Lemma transform_nonempty c : transform_byte c <> [].
Proof. set (P := fun c => negb (len (transform_byte c) =? 0)). sweep P c. intros E. rewrite E in SW. discriminate. Qed.
Lemma transform_sign c : beq c b_minus = true \/ beq c b_plus = true -> transform_byte c = [c].
Proof. intros [H|H]; apply beq_true in H; subst; vm_compute; reflexivity. Qed.

Lemma up_alnum c : alnum c = true -> alnum (up c) = true /\ value (up c) = value c /\ is_digit (up c) = is_digit c /\ (is_digit (up c) || is_upper (up c)) = true.
Proof.
  intros H. set (P := fun c => negb (alnum c) || (alnum (up c) && (value (up c) =? value c) && Bool.eqb (is_digit (up c)) (is_digit c) && (is_digit (up c) || is_upper (up c)))). sweep P c.
  rewrite H in SW. cbn [negb orb] in SW. apply andb_prop in SW. destruct SW as [SW H4]. apply andb_prop in SW. destruct SW as [SW H3]. apply andb_prop in SW. destruct SW as [H1 H2].
  split; [exact H1|]. split; [lia|]. split; [apply Bool.eqb_prop; exact H3|exact H4].
Qed.
Lemma upper_byte_up c : upper_byte c = up c. Proof. reflexivity. Qed.
Lemma up_upper c : (is_digit c || is_upper c) = true -> up c = c /\ alnum c = true.
Proof.
  intros H. set (P := fun c => negb (is_digit c || is_upper c) || (beq (up c) c && alnum c)). sweep P c.
  rewrite H in SW. cbn [negb orb] in SW. apply andb_prop in SW. destruct SW as [H1 H2]. apply beq_true in H1. auto.
Qed.
Lemma alnum_ascii c : alnum c = true -> beq c "196" = false /\ beq c "197" = false /\ beq c b_minus = false /\ beq c b_plus = false /\ is_space c = false.
Proof.
  intros H. set (P := fun c => negb (alnum c) || (negb (beq c "196") && negb (beq c "197") && negb (beq c b_minus) && negb (beq c b_plus) && negb (is_space c))). sweep P c.
  rewrite H in SW. cbn [negb orb] in SW. repeat (apply andb_prop in SW; destruct SW as [SW ?]).
  repeat match goal with X : negb _ = true |- _ => apply negb_true_iff in X end. auto.
Qed.
Lemma value_range c : alnum c = true -> 0 <= value c <= 35 /\ (is_digit c = true -> value c <= 9) /\ (is_digit c = false -> 10 <= value c).
Proof.
  intros H. set (P := fun c => negb (alnum c) || ((0 <=? value c) && (value c <=? 35) && (negb (is_digit c) || (value c <=? 9)) && (is_digit c || (10 <=? value c)))). sweep P c.
  rewrite H in SW. cbn [negb orb] in SW. repeat (apply andb_prop in SW; destruct SW as [SW ?]).
  split; [lia|]. split; intros E; rewrite E in *; cbn [negb orb] in *; lia.
Qed.

(** ** Upper case *)
Lemma pair_ind (P : list byte -> Prop) : P [] -> (forall c, P [c]) -> (forall c d r, P r -> P (d :: r) -> P (c :: d :: r)) -> forall l, P l.
Proof.
  intros H0 H1 H2 l. assert (G : P l /\ forall c, P (c :: l)); [|apply G].
  induction l as [|d r [IH1 IH2]]; [split; [exact H0|exact H1]|]. split; [apply IH2|]. intros c. apply H2; [exact IH1|apply IH2].
Qed.
Lemma upper_two c d r : upper (c :: d :: r) =
  if is_two c d "196" "177" then "I"%byte :: upper r
  else if is_two c d "197" "191" then "S"%byte :: upper r else upper_byte c :: upper (d :: r).
Proof. reflexivity. Qed.
Lemma upper_alnum l : forallb alnum l = true -> upper l = map up l.
Proof.
  induction l as [|c|c d r _ IH] using pair_ind; intros H; [reflexivity|reflexivity|].
  rewrite upper_two. cbn [forallb] in H. apply andb_prop in H. destruct H as [Hc H].
  destruct (alnum_ascii c Hc) as [H1 [H2 _]]. unfold is_two. rewrite H1, H2. cbn [andb map].
  rewrite IH by exact H. reflexivity.
Qed.
Lemma upper_head_plain c l : beq c "196" = false -> beq c "197" = false -> upper (c :: l) = upper_byte c :: upper l.
Proof. intros H1 H2. destruct l as [|d r]; [reflexivity|]. rewrite upper_two. unfold is_two. rewrite H1, H2. reflexivity. Qed.
Lemma upper_length l : (List.length (upper l) <= List.length l)%nat.
Proof.
  induction l as [|c|c d r IH1 IH2] using pair_ind; [cbn; lia|cbn; lia|]. rewrite upper_two.
  destruct (is_two c d "196" "177"); [cbn [List.length]; lia|]. destruct (is_two c d "197" "191"); cbn [List.length] in *; lia.
Qed.
Lemma upper_nonempty l : l <> [] -> upper l <> [].
Proof.
  destruct l as [|c [|d r]]; [congruence|discriminate|]. intros _. rewrite upper_two.
  destruct (is_two c d "196" "177"); [discriminate|]. destruct (is_two c d "197" "191"); discriminate.
Qed.
Lemma upper_country cc : List.length cc = 2%nat -> cc <> ["196"; "177"]%byte -> cc <> ["197"; "191"]%byte -> upper cc = map upper_byte cc.
Proof.
  destruct cc as [|c [|d [|? ?]]]; try discriminate. intros _ H1 H2. rewrite upper_two. unfold is_two.
  destruct (beq_spec c "196"), (beq_spec d "177"); cbn [andb]; try (exfalso; apply H1; congruence);
  destruct (beq_spec c "197"), (beq_spec d "191"); cbn [andb]; try (exfalso; apply H2; congruence); reflexivity.
Qed.
(** Texts that are upper case already. *)
Definition plain (l : bytes) : Prop := forallb (fun c => is_digit c || is_upper c) l = true.
Lemma plain_alnum l : plain l -> forallb alnum l = true /\ map up l = l.
Proof.
  unfold plain. induction l as [|c l IH]; cbn [forallb map]; [auto|]. intros H. apply andb_prop in H. destruct H as [H1 H2].
  destruct (up_upper c H1) as [U1 U2]. destruct (IH H2) as [I1 I2]. rewrite U1, U2, I1, I2. auto.
Qed.
Lemma upper_plain l : plain l -> upper l = l.
Proof. intros H. destruct (plain_alnum l H) as [H1 H2]. rewrite upper_alnum, H2 by exact H1. reflexivity. Qed.
Lemma plain_up l : forallb alnum l = true -> plain (map up l).
Proof.
  unfold plain. induction l as [|c l IH]; cbn [forallb map]; [reflexivity|]. intros H. apply andb_prop in H. destruct H as [H1 H2].
  rewrite (IH H2), andb_true_r. apply (up_alnum c H1).
Qed.
Lemma up_idem c : alnum c = true -> up (up c) = up c.
Proof. intros H. destruct (up_alnum c H) as [_ [_ [_ H4]]]. apply (up_upper _ H4). Qed.

(** ** Numbers *)
Lemma transform_app a b : transform (a ++ b) = transform a ++ transform b.
Proof. apply flat_map_app. Qed.
Lemma transform_nil_iff l : transform l = [] <-> l = [].
Proof.
  split; [|intros ->; reflexivity]. destruct l as [|c l]; [reflexivity|]. cbn [transform flat_map]. intros H.
  apply app_eq_nil in H. destruct H as [H _]. destruct (transform_nonempty c H).
Qed.
Lemma transform_forallb l : forallb is_digit (transform l) = forallb (fun c => is_digit c || is_upper c) l.
Proof.
  induction l as [|c l IH]; [reflexivity|]. cbn [transform flat_map forallb]. fold (transform l).
  rewrite forallb_app, transform_digits, IH. reflexivity.
Qed.
Definition step (n : Z) (c : byte) : Z := (if is_digit c then 10 else 100) * n + value c.
Definition dstep (a : N) (b : byte) : N := (10 * a + digit_val b)%N.
Lemma digit_value c : is_digit c = true -> Z.of_N (digit_val c) = value c.
Proof. intros H. unfold value, digit_val, zb. rewrite H. unfold is_digit, zb in H. lia. Qed.
Lemma transform_step l : forall a, plain l -> Z.of_N (fold_left dstep (transform l) a) = fold_left step l (Z.of_N a).
Proof.
  unfold plain. induction l as [|c l IH]; intros a H; [reflexivity|]. cbn [forallb] in H. apply andb_prop in H. destruct H as [Hc H].
  cbn [transform flat_map fold_left]. fold (transform l). rewrite fold_left_app, (IH _ H). f_equal. unfold step.
  destruct (is_digit c) eqn:E.
  - rewrite (transform_digit c E). cbn [fold_left]. unfold dstep. rewrite <- (digit_value c E). lia.
  - cbn [orb] in Hc. destruct (two_digits_spec _ _ (transform_upper c Hc)) as [x [y [T1 [T2 [T3 T4]]]]]. rewrite T1. cbn [fold_left]. unfold dstep. lia.
Qed.
Lemma number_up l : forallb alnum l = true -> forall n, fold_left step (map up l) n = fold_left step l n.
Proof.
  induction l as [|c l IH]; intros H n; [reflexivity|]. cbn [forallb] in H. apply andb_prop in H. destruct H as [Hc H].
  cbn [map fold_left]. rewrite (IH H). f_equal. unfold step. destruct (up_alnum c Hc) as [_ [H2 [H3 _]]]. rewrite H2, H3. reflexivity.
Qed.
Lemma number_dec l : plain l -> number l = Z.of_N (dec_val (transform l)).
Proof. intros H. unfold dec_val. symmetry. exact (transform_step l 0%N H). Qed.
Lemma number_up0 l : forallb alnum l = true -> number (map up l) = number l.
Proof. intros H. apply number_up. exact H. Qed.
Fixpoint width (l : bytes) : Z :=
  match l with [] => 0 | c :: r => (if is_digit c then 1 else 2) + width r end.
Lemma width_nonneg l : 0 <= width l.
Proof. induction l as [|c l IH]; cbn [width]; [lia|]. destruct (is_digit c); lia. Qed.
Lemma step_acc l : forall n, fold_left step l n = n * 10 ^ width l + fold_left step l 0.
Proof.
  induction l as [|c l IH]; intros n; cbn [fold_left width]; [lia|]. rewrite (IH (step n c)), (IH (step 0 c)). unfold step.
  pose proof (width_nonneg l). destruct (is_digit c); rewrite Z.pow_add_r by lia; change (10 ^ 1) with 10; change (10 ^ 2) with 100; nia.
Qed.
Lemma number_app a b : number (a ++ b) = number a * 10 ^ width b + number b.
Proof. unfold number. rewrite fold_left_app. apply (step_acc b). Qed.
Lemma number_nonneg l : forallb alnum l = true -> 0 <= number l.
Proof.
  intros H. assert (G : forall n, 0 <= n -> 0 <= fold_left step l n); [|apply G; lia].
  induction l as [|c l IH]; intros n Hn; [exact Hn|]. cbn [forallb] in H. apply andb_prop in H. destruct H as [Hc H]. cbn [fold_left].
  apply (IH H). unfold step. destruct (value_range c Hc) as [V _]. destruct (is_digit c); lia.
Qed.

(** ** SetString *)
Lemma atoi_digits_some l : l <> [] -> forallb is_digit l = true -> atoi_digits l = Some (dec_val l).
Proof. intros H1 H2. destruct l; [congruence|]. unfold atoi_digits. rewrite H2. reflexivity. Qed.
Lemma atoi_digits_inv l n : atoi_digits l = Some n -> l <> [] /\ forallb is_digit l = true /\ n = dec_val l.
Proof.
  destruct l; [discriminate|]. unfold atoi_digits. destruct (forallb is_digit _) eqn:E; [|discriminate]. intros H. injection H as <-. split; [discriminate|auto].
Qed.
Lemma set_string_digits l : l <> [] -> forallb is_digit l = true -> set_string l = Some (Z.of_N (dec_val l)).
Proof.
  intros H1 H2. destruct l as [|c l]; [congruence|]. unfold set_string. assert (Hc : is_digit c = true) by (cbn in H2; apply andb_prop in H2; apply H2).
  destruct (is_digit_not_sign c Hc) as [-> ->]. rewrite atoi_digits_some by assumption. reflexivity.
Qed.
Lemma set_string_inv l n : set_string l = Some n ->
  (l <> [] /\ forallb is_digit l = true /\ n = Z.of_N (dec_val l)) \/
  exists c ds, l = c :: ds /\ ds <> [] /\ forallb is_digit ds = true /\
    ((c = b_minus /\ n = - Z.of_N (dec_val ds)) \/ (c = b_plus /\ n = Z.of_N (dec_val ds))).
Proof.
  destruct l as [|c l]; [discriminate|]. unfold set_string. destruct (beq_spec c b_minus); [|destruct (beq_spec c b_plus)].
  - destruct (atoi_digits l) eqn:E; [|discriminate]. intros H. injection H as <-. apply atoi_digits_inv in E. destruct E as [E1 [E2 ->]].
    right. exists c, l. repeat (split; [first [reflexivity|assumption]|]). left. auto.
  - destruct (atoi_digits l) eqn:E; [|discriminate]. intros H. injection H as <-. apply atoi_digits_inv in E. destruct E as [E1 [E2 ->]].
    right. exists c, l. repeat (split; [first [reflexivity|assumption]|]). right. auto.
  - destruct (atoi_digits (c :: l)) eqn:E; [|discriminate]. intros H. injection H as <-. apply atoi_digits_inv in E. destruct E as [E1 [E2 ->]]. left. auto.
Qed.
(** A number that starts with the transformed [u] and goes on with digits. *)
Lemma set_string_transform u r n : forallb is_digit r = true -> r <> [] -> set_string (transform u ++ r) = Some n ->
  (plain u /\ n = Z.of_N (dec_val (transform u ++ r))) \/
  exists c v, u = c :: v /\ plain v /\ ((c = b_minus /\ n = - Z.of_N (dec_val (transform v ++ r))) \/ (c = b_plus /\ n = Z.of_N (dec_val (transform v ++ r)))).
Proof.
  intros Hr Nr H. apply set_string_inv in H. destruct H as [[_ [H ->]]|[c [ds [E [H1 [H2 H3]]]]]].
  - left. rewrite forallb_app, transform_forallb in H. apply andb_prop in H. destruct H as [H _]. split; [exact H|reflexivity].
  - right. destruct u as [|d v].
    + cbn [transform flat_map app] in E. exfalso. rewrite E in Hr. cbn in Hr. apply andb_prop in Hr. destruct Hr as [Hr _].
      apply is_digit_not_sign in Hr. destruct H3 as [[-> _]|[-> _]]; destruct Hr as [X1 X2]; vm_compute in X1, X2; discriminate.
    + cbn [transform flat_map] in E. fold (transform v) in E.
      assert (D : d = c /\ transform_byte d = [d]).
      { destruct (transform_byte d) as [|x t] eqn:Et; [destruct (transform_nonempty d Et)|]. cbn [app] in E. injection E as Ex _.
        set (P := fun d => match transform_byte d with x :: _ => negb (beq x b_minus || beq x b_plus) || beq d x | [] => true end). sweep P d.
        rewrite Et in SW. assert (Hs : (beq x b_minus || beq x b_plus) = true).
        { subst x. destruct H3 as [[-> _]|[-> _]]; rewrite beq_refl; [reflexivity|apply orb_true_r]. }
        rewrite Hs in SW. cbn [negb orb] in SW. apply beq_true in SW. subst d.
        assert (X : transform_byte x = [x]) by (apply transform_sign; apply orb_prop in Hs; exact Hs). split; [exact Ex|]. congruence. }
      destruct D as [-> Et]. rewrite Et in E. cbn [app] in E. injection E as <-.
      exists c, v. split; [reflexivity|]. rewrite forallb_app, transform_forallb in H2. apply andb_prop in H2. destruct H2 as [H2 _].
      split; [exact H2|]. exact H3.
Qed.

(** ** The two check digits *)
Lemma pp_spec p : 0 <= p <= 99 -> exists a b, itoa_pad 2 p = [a; b] /\ is_digit a = true /\ is_digit b = true /\ Z.of_N (dec_val [a; b]) = p.
Proof.
  intros H. assert (G : forallb (fun n => two_digits (itoa_pad 2 (Z.of_nat n)) (Z.of_nat n)) (seq 0 100) = true) by (vm_compute; reflexivity).
  rewrite forallb_forall in G. specialize (G (Z.to_nat p)). rewrite Z2Nat.id in G by lia.
  assert (I : In (Z.to_nat p) (seq 0 100)) by (apply in_seq; lia). apply G in I.
  destruct (two_digits_spec _ _ I) as [a [b [H1 [H2 [H3 H4]]]]]. exists a, b. repeat (split; [assumption|]).
  unfold dec_val. cbn [fold_left]. lia.
Qed.
Lemma dec_val_two x a b : Z.of_N (dec_val (x ++ [a; b])) = 100 * Z.of_N (dec_val x) + Z.of_N (dec_val [a; b]).
Proof. rewrite dec_val_app. unfold dec_val. cbn [fold_left]. lia. Qed.
Lemma check_mod x p : 0 <= x -> p = 98 - (100 * x) mod 97 -> (100 * x + p) mod 97 = 1.
Proof. intros H ->. lia. Qed.
Lemma max_length_bound cc : 15 <= max_length cc <= 34.
Proof.
  unfold max_length. destruct (find _ max_lengths) as [e|] eqn:E; [|lia]. apply find_some in E. destruct E as [E _].
  assert (G : forallb (fun e => (15 <=? snd e) && (snd e <=? 34)) max_lengths = true) by (vm_compute; reflexivity).
  rewrite forallb_forall in G. specialize (G e E). lia.
Qed.
