(** Lemmas about [Base]. *)
From Verif Require Import Base.
From Coq Require Import Lia ZifyBool ZifyNat ZifyN.
Ltac Zify.zify_post_hook ::= Z.div_mod_to_equations.

Lemma beq_true a b : beq a b = true <-> a = b.
Proof.
  unfold beq. split; intros H.
  - now apply Byte.byte_dec_bl.
  - now apply Byte.byte_dec_lb.
Qed.
Lemma beq_refl a : beq a a = true.
Proof. now apply beq_true. Qed.
Lemma beq_false a b : beq a b = false <-> a <> b.
Proof.
  rewrite <- beq_true. destruct (beq a b); split; congruence.
Qed.
Lemma beq_spec a b : reflect (a = b) (beq a b).
Proof.
  destruct (beq a b) eqn:E; constructor.
  - now apply beq_true.
  - now apply beq_false.
Qed.
Lemma beq_sym a b : beq a b = beq b a.
Proof. destruct (beq_spec a b), (beq_spec b a); congruence. Qed.

Lemma bytes_eqb_spec a b : reflect (a = b) (bytes_eqb a b).
Proof.
  revert b; induction a as [|x a IH]; intros [|y b]; simpl; try (constructor; congruence).
  destruct (beq_spec x y) as [->|Hn]; simpl.
  - destruct (IH b) as [->|Hn]; constructor; congruence.
  - constructor; congruence.
Qed.
Lemma bytes_eqb_refl a : bytes_eqb a a = true.
Proof. now destruct (bytes_eqb_spec a a). Qed.

Lemma zb_range b : (0 <= zb b < 256)%Z.
Proof.
  unfold zb. pose proof (Byte.to_N_bounded b). lia.
Qed.
Lemma zb_inj a b : zb a = zb b -> a = b.
Proof.
  unfold zb. intros H. assert (Byte.to_N a = Byte.to_N b) by lia.
  assert (Some a = Some b) as HH by (rewrite <- !Byte.of_to_N; congruence).
  congruence.
Qed.

Lemma byte_forall (P : byte -> bool) :
  (forall n, (n < 256)%nat -> match Byte.of_nat n with Some b => P b = true | None => True end) ->
  forall b, P b = true.
Proof.
  intros H b. specialize (H (Byte.to_nat b)).
  rewrite Byte.of_to_nat in H. apply H.
  pose proof (Byte.to_nat_bounded b). lia.
Qed.

Definition all_bytes : list byte :=
  flat_map (fun n => match Byte.of_nat n with Some b => [b] | None => [] end) (seq 0 256).
Lemma all_bytes_complete b : In b all_bytes.
Proof.
  unfold all_bytes. apply in_flat_map. exists (Byte.to_nat b). split.
  - apply in_seq. pose proof (Byte.to_nat_bounded b). lia.
  - rewrite Byte.of_to_nat. now left.
Qed.
(** Lifts a computed sweep over all 256 bytes to every byte. *)
Lemma byte_sweep (P : byte -> bool) : forallb P all_bytes = true -> forall b, P b = true.
Proof.
  intros H b. rewrite forallb_forall in H. apply H, all_bytes_complete.
Qed.

(** ** Lists *)
Lemma has_prefix_spec p l : has_prefix p l = true <-> exists r, l = p ++ r.
Proof.
  revert l; induction p as [|x p IH]; intros l; simpl.
  - split; [exists l; reflexivity | reflexivity].
  - destruct l as [|y l]; [split; [discriminate | intros [r Hr]; discriminate]|].
    rewrite andb_true_iff, IH, beq_true. split.
    + intros [-> [r ->]]. now exists r.
    + intros [r Hr]. injection Hr as -> ->. split; [reflexivity | now exists r].
Qed.

Lemma join_cons sep x y ls : join sep (x :: y :: ls) = x ++ sep ++ join sep (y :: ls).
Proof. reflexivity. Qed.

Lemma mem_byte_In b l : mem_byte b l = true <-> In b l.
Proof.
  unfold mem_byte. rewrite existsb_exists. split.
  - intros [x [Hx Hb]]. apply beq_true in Hb. now subst.
  - intros H. exists b. split; [assumption | apply beq_refl].
Qed.

(** trimming *)
Lemma trim_left_spec c l :
  exists k, l = repeat c k ++ trim_left c l /\ (forall b r, trim_left c l = b :: r -> b <> c).
Proof.
  induction l as [|b l [k [Hl Hh]]]; simpl.
  - exists 0%nat. split; [reflexivity | discriminate].
  - destruct (beq_spec b c) as [->|Hn].
    + exists (S k). simpl. split; [now f_equal | assumption].
    + exists 0%nat. split; [reflexivity|]. intros b' r E. now injection E as <- <-.
Qed.
Lemma trim_right_app_stop c l b : b <> c -> trim_right c (l ++ [b]) = l ++ [b].
Proof.
  intros Hb. unfold trim_right. rewrite rev_app_distr. simpl.
  apply beq_false in Hb. rewrite Hb. simpl. now rewrite rev_involutive.
Qed.
Lemma trim_left_repeat_app c k l : trim_left c (repeat c k ++ l) = trim_left c l.
Proof. induction k; simpl; [reflexivity|]. now rewrite beq_refl. Qed.
Lemma rev_repeat {A} (c : A) k : rev (repeat c k) = repeat c k.
Proof.
  induction k; simpl; [reflexivity|]. rewrite IHk.
  clear. induction k; simpl; [reflexivity|]. now rewrite IHk.
Qed.
Lemma trim_right_repeat c k l : trim_right c (l ++ repeat c k) = trim_right c l.
Proof.
  unfold trim_right. rewrite rev_app_distr, rev_repeat, trim_left_repeat_app. reflexivity.
Qed.
Lemma trim_right_nil c : trim_right c [] = [].
Proof. reflexivity. Qed.
Lemma trim_right_id c l : (forall p b, l = p ++ [b] -> b <> c) -> trim_right c l = l.
Proof.
  intros H. destruct l as [|x l] using rev_ind; [reflexivity|].
  apply trim_right_app_stop. eapply H. reflexivity.
Qed.
Lemma trim_right_spec c l :
  exists k, l = trim_right c l ++ repeat c k /\ (forall p b, trim_right c l = p ++ [b] -> b <> c).
Proof.
  unfold trim_right. destruct (trim_left_spec c (rev l)) as [k [Hl Hh]].
  exists k. split.
  - rewrite <- (rev_involutive l) at 1. rewrite Hl at 1.
    rewrite rev_app_distr, rev_repeat. reflexivity.
  - intros p b E. apply (f_equal (@rev byte)) in E. rewrite rev_involutive, rev_app_distr in E.
    simpl in E. eapply Hh. exact E.
Qed.

(** ** Decimal numbers *)
Lemma digit_char_spec n : (n < 10)%N ->
  is_digit (digit_char n) = true /\ digit_val (digit_char n) = n.
Proof.
  intros H.
  assert (E : (n = 0 \/ n = 1 \/ n = 2 \/ n = 3 \/ n = 4 \/ n = 5 \/ n = 6 \/ n = 7 \/ n = 8 \/ n = 9)%N) by lia.
  repeat (destruct E as [->|E]; [now vm_compute|]). subst n. now vm_compute.
Qed.
Lemma is_digit_val b : is_digit b = true -> digit_char (digit_val b) = b /\ (digit_val b < 10)%N.
Proof.
  revert b.
  assert (H : forall b, (negb (is_digit b) || (beq (digit_char (digit_val b)) b && (digit_val b <? 10)%N)) = true).
  { apply byte_sweep. vm_compute. reflexivity. }
  intros b Hb. specialize (H b). rewrite Hb in H. simpl in H.
  apply andb_true_iff in H. destruct H as [H1 H2]. apply beq_true in H1. split; [assumption | lia].
Qed.

Lemma dec_val_app a b : dec_val (a ++ b) = fold_left (fun a b => (10 * a + digit_val b)%N) b (dec_val a).
Proof. unfold dec_val. now rewrite fold_left_app. Qed.
Lemma dec_fold_acc l : forall a,
  fold_left (fun a b => (10 * a + digit_val b)%N) l a = (a * 10 ^ N.of_nat (List.length l) + dec_val l)%N.
Proof.
  unfold dec_val. induction l as [|b l IH]; intros a; cbn [fold_left List.length].
  - change (N.of_nat 0) with 0%N. rewrite N.pow_0_r. lia.
  - rewrite IH. rewrite (IH (10 * 0 + digit_val b)%N).
    rewrite Nat2N.inj_succ, N.pow_succ_r'. nia.
Qed.
Lemma dec_val_cons b l : dec_val (b :: l) = (digit_val b * 10 ^ N.of_nat (List.length l) + dec_val l)%N.
Proof.
  unfold dec_val at 1. cbn [fold_left]. rewrite dec_fold_acc. f_equal.
Qed.
Lemma dec_val_bound l : forallb is_digit l = true -> (dec_val l < 10 ^ N.of_nat (List.length l))%N.
Proof.
  induction l as [|b l IH]; intros H.
  - vm_compute. reflexivity.
  - simpl in H. apply andb_true_iff in H. destruct H as [Hb Hl].
    specialize (IH Hl). rewrite dec_val_cons. cbn [List.length].
    rewrite Nat2N.inj_succ, N.pow_succ_r'.
    destruct (is_digit_val b Hb) as [_ Hv]. nia.
Qed.

Lemma dec_digits_spec fuel : forall n acc,
  (n < 10 ^ N.of_nat fuel)%N -> fuel <> 0%nat ->
  exists ds, dec_digits fuel n acc = ds ++ acc /\ ds <> [] /\ forallb is_digit ds = true /\
             dec_val ds = n /\
             (n = 0%N -> ds = [b_zero]) /\
             (n <> 0%N -> forall d r, ds = d :: r -> d <> b_zero).
Proof.
  induction fuel as [|f IH]; intros n acc Hn Hf; [congruence|].
  cbn [dec_digits].
  assert (Hm : (n mod 10 < 10)%N) by (apply N.mod_lt; lia).
  destruct (digit_char_spec _ Hm) as [Hd Hv].
  destruct (N.eqb_spec (n / 10) 0) as [E|E].
  - assert (Hn10 : (n < 10)%N) by (generalize E; clear; intros; lia).
    assert (Hmod : (n mod 10 = n)%N) by (apply N.mod_small; assumption).
    rewrite Hmod in *.
    exists [digit_char n]. repeat split.
    + discriminate.
    + cbn [forallb]. now rewrite Hd.
    + unfold dec_val. cbn [fold_left]. rewrite Hv. lia.
    + intros ->. reflexivity.
    + intros Hnz d r Hdr. injection Hdr as <- <-. intros Hz.
      rewrite Hz in Hv. change (digit_val b_zero) with 0%N in Hv. congruence.
  - destruct (IH (n / 10)%N (digit_char (n mod 10) :: acc)) as [ds [H1 [H2 [H3 [H4 [H5 H6]]]]]].
    + rewrite Nat2N.inj_succ, N.pow_succ_r' in Hn. apply N.div_lt_upper_bound; lia.
    + destruct f; [|discriminate]. intros _.
      change (N.of_nat 1) with 1%N in Hn. rewrite N.pow_1_r in Hn.
      apply E. apply N.div_small. lia.
    + exists (ds ++ [digit_char (n mod 10)]). split; [|split; [|split; [|split; [|split]]]].
      * rewrite H1, <- app_assoc. reflexivity.
      * intros Hx. apply app_eq_nil in Hx. destruct Hx; discriminate.
      * rewrite forallb_app, H3. cbn [forallb]. now rewrite Hd.
      * rewrite dec_val_app, H4. cbn [fold_left]. rewrite Hv.
        pose proof (N.div_mod n 10 ltac:(lia)). lia.
      * intros ->. exfalso. apply E. reflexivity.
      * intros Hnz d r Hdr. destruct ds as [|d' ds']; [congruence|].
        injection Hdr as -> _. eapply H6; [assumption | reflexivity].
Qed.

Lemma size_bound n : (n < 10 ^ N.of_nat (S (N.size_nat n)))%N.
Proof.
  assert (H : (n < 2 ^ N.of_nat (N.size_nat n))%N).
  { destruct n as [|p]; [reflexivity|]. cbn [N.size_nat].
    induction p as [p IH|p IH|]; cbn [Pos.size_nat]; try reflexivity;
      rewrite Nat2N.inj_succ, N.pow_succ_r'; lia. }
  eapply N.lt_le_trans; [exact H|].
  transitivity (2 ^ N.of_nat (S (N.size_nat n)))%N.
  - apply N.pow_le_mono_r; lia.
  - apply N.pow_le_mono_l; lia.
Qed.

Lemma itoa_N_spec n :
  itoa_N n <> [] /\ forallb is_digit (itoa_N n) = true /\ dec_val (itoa_N n) = n /\
  (n = 0%N -> itoa_N n = [b_zero]) /\
  (n <> 0%N -> forall d r, itoa_N n = d :: r -> d <> b_zero).
Proof.
  unfold itoa_N.
  destruct (dec_digits_spec (S (N.size_nat n)) n [] (size_bound n) ltac:(lia))
    as [ds [H1 [H2 [H3 [H4 [H5 H6]]]]]].
  rewrite app_nil_r in H1. rewrite H1. auto.
Qed.

Lemma dec_val_zeros k l : dec_val (repeat b_zero k ++ l) = dec_val l.
Proof.
  induction k; simpl; [reflexivity|].
  rewrite dec_val_cons, IHk. change (digit_val b_zero) with 0%N. lia.
Qed.

Lemma dec_val_lower l d r : forallb is_digit l = true -> l = d :: r -> d <> b_zero ->
  (10 ^ N.of_nat (List.length r) <= dec_val l)%N.
Proof.
  intros Hl -> Hd. rewrite dec_val_cons.
  simpl in Hl. apply andb_true_iff in Hl. destruct Hl as [Hb _].
  destruct (is_digit_val d Hb) as [Hc Hv].
  assert (digit_val d <> 0%N).
  { intros E. rewrite E in Hc. apply Hd. rewrite <- Hc. reflexivity. }
  nia.
Qed.

(** Number of digits *)
Lemma itoa_N_length n k : (n < 10 ^ N.of_nat k)%N -> (0 < k)%nat -> (List.length (itoa_N n) <= k)%nat.
Proof.
  intros Hn Hk.
  destruct (itoa_N_spec n) as [H1 [H2 [H3 [H4 H5]]]].
  destruct (N.eq_dec n 0) as [->|Hnz].
  - rewrite (H4 eq_refl). simpl. lia.
  - destruct (itoa_N n) as [|d r] eqn:E; [congruence|].
    specialize (H5 Hnz d r eq_refl).
    pose proof (dec_val_lower (d :: r) d r H2 eq_refl H5) as HH.
    rewrite H3 in HH. simpl.
    destruct (Nat.le_gt_cases (S (List.length r)) k) as [?|Hgt]; [assumption|].
    assert (10 ^ N.of_nat k <= 10 ^ N.of_nat (List.length r))%N by (apply N.pow_le_mono_r; lia).
    lia.
Qed.

Lemma atoi_digits_itoa n : atoi_digits (itoa_N n) = Some n.
Proof.
  destruct (itoa_N_spec n) as [H1 [H2 [H3 _]]].
  unfold atoi_digits. destruct (itoa_N n) eqn:E; [congruence|].
  now rewrite H2, H3.
Qed.

Lemma is_digit_not_sign b : is_digit b = true -> beq b b_minus = false /\ beq b b_plus = false.
Proof.
  intros H.
  assert (G : forall b, (negb (is_digit b) || (negb (beq b b_minus) && negb (beq b b_plus))) = true).
  { apply byte_sweep. vm_compute. reflexivity. }
  specialize (G b). rewrite H in G. simpl in G.
  destruct (beq b b_minus), (beq b b_plus); now auto.
Qed.

Lemma atoi_nonneg_digits l n : atoi_digits l = Some n -> (Z.of_N n <= int64_max)%Z ->
  atoi l = Ok (Z.of_N n).
Proof.
  intros H Hn. unfold atoi. destruct l as [|c ds]; [discriminate|].
  assert (Hc : is_digit c = true).
  { unfold atoi_digits in H. simpl in H. destruct (is_digit c); [reflexivity | discriminate]. }
  destruct (is_digit_not_sign c Hc) as [-> ->].
  rewrite H. unfold in_int64.
  replace (int64_min <=? Z.of_N n)%Z with true by (unfold int64_min; lia).
  replace (Z.of_N n <=? int64_max)%Z with true by lia. reflexivity.
Qed.

Lemma atoi_itoa z : in_int64 z = true -> atoi (itoa z) = Ok z.
Proof.
  unfold in_int64. intros Hz. unfold itoa.
  destruct (Z.ltb_spec z 0) as [Hneg|Hpos].
  - unfold atoi. rewrite beq_refl, atoi_digits_itoa.
    replace (- Z.of_N (Z.to_N (- z)))%Z with z by lia.
    unfold in_int64. now rewrite Hz.
  - rewrite (atoi_nonneg_digits _ _ (atoi_digits_itoa _)).
    + f_equal. lia.
    + lia.
Qed.

Lemma atoi_digits_pad k l n : atoi_digits l = Some n -> atoi_digits (repeat b_zero k ++ l) = Some n.
Proof.
  unfold atoi_digits. destruct l as [|c ds]; [discriminate|].
  destruct (forallb is_digit (c :: ds)) eqn:E; [|discriminate].
  intros H. injection H as <-.
  assert (Hz : forallb is_digit (repeat b_zero k ++ c :: ds) = true).
  { rewrite forallb_app, E, andb_true_r. clear. induction k; simpl; [reflexivity|]. rewrite IHk. reflexivity. }
  rewrite Hz, dec_val_zeros. destruct k; reflexivity.
Qed.

Lemma atoi_itoa_pad w z : in_int64 z = true -> atoi (itoa_pad w z) = Ok z.
Proof.
  unfold in_int64. intros Hz. unfold itoa_pad, pad_left.
  destruct (Z.ltb_spec z 0) as [Hneg|Hpos].
  - unfold atoi. rewrite beq_refl.
    rewrite (atoi_digits_pad _ _ _ (atoi_digits_itoa _)).
    replace (- Z.of_N (Z.to_N (- z)))%Z with z by lia.
    unfold in_int64. now rewrite Hz.
  - rewrite (atoi_nonneg_digits _ _ (atoi_digits_pad _ _ _ (atoi_digits_itoa _))).
    + f_equal. lia.
    + lia.
Qed.

Lemma all_ok_app {A C} (f : A -> outcome C) l1 l2 :
  all_ok f (l1 ++ l2) = (do a <- all_ok f l1; do b <- all_ok f l2; Ok (a ++ b)).
Proof.
  induction l1 as [|x l1 IH]; simpl.
  - destruct (all_ok f l2); reflexivity.
  - destruct (f x); simpl; try reflexivity. rewrite IH.
    destruct (all_ok f l1); simpl; try reflexivity.
    destruct (all_ok f l2); reflexivity.
Qed.
Lemma all_ok_length {A C} (f : A -> outcome C) l ys : all_ok f l = Ok ys -> List.length ys = List.length l.
Proof.
  revert ys; induction l as [|x l IH]; simpl; intros ys H.
  - now injection H as <-.
  - destruct (f x); simpl in H; try discriminate. destruct (all_ok f l); simpl in H; try discriminate.
    injection H as <-. simpl. now rewrite (IH _ eq_refl).
Qed.
Lemma all_ok_Forall2 {A C} (f : A -> outcome C) l ys :
  all_ok f l = Ok ys <-> Forall2 (fun x y => f x = Ok y) l ys.
Proof.
  revert ys; induction l as [|x l IH]; simpl; intros ys.
  - split; [intros H; injection H as <-; constructor | intros H; inversion H; reflexivity].
  - destruct (f x) eqn:E; simpl.
    + destruct (all_ok f l) eqn:E2; simpl; split; intros H; try discriminate.
      * injection H as <-. constructor; [assumption | now apply IH].
      * inversion H; subst. rewrite E in H2. injection H2 as ->.
        apply IH in H4. congruence.
      * inversion H; subst. apply IH in H4. discriminate.
      * inversion H; subst. apply IH in H4. discriminate.
    + split; intros H; [discriminate | inversion H; subst; congruence].
    + split; intros H; [discriminate | inversion H; subst; congruence].
Qed.
