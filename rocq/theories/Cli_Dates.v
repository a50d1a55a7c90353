(** * Days of the calendar *)
From Verif Require Import Base Codec_Model Codec_Spec Codec_Proofs Cli_Model Cli_Spec.
From Coq Require Import Lia ZifyBool.
Open Scope Z_scope.
Ltac Zify.zify_post_hook ::= Z.div_mod_to_equations.

Lemma calendar_day_iff d : calendar_day d <-> 1 <= d_month d <= 12 /\ 1 <= d_day d <= days_in (d_month d) (d_year d).
Proof. unfold calendar_day. split; intros [H1 H2]; (split; [exact H1|]); rewrite ?days_in_length in *; assumption. Qed.
Ltac dbm := repeat match goal with |- context [days_before_month (Zpos ?p)] =>
  let v := eval vm_compute in (days_before_month (Zpos p)) in change (days_before_month (Zpos p)) with v in * end.
Ltac tests := cbn [Z.leb Z.compare Z.eqb Pos.compare Pos.compare_cont Pos.eqb andb orb CompOpp d_month d_year d_day] in *.
Definition year_length (y : Z) : Z := if is_leap y then 366 else 365.
Lemma year_parts y : exists a b c e, y = 400 * a + 100 * b + 4 * c + e + 1 /\ 0 <= b <= 3 /\ 0 <= c <= 24 /\ 0 <= e <= 3.
Proof.
  exists ((y - 1) / 400), ((y - 1) mod 400 / 100), ((y - 1) mod 100 / 4), ((y - 1) mod 4). lia.
Qed.
Lemma leap_parts a b c e : 0 <= b <= 3 -> 0 <= c <= 24 -> 0 <= e <= 3 ->
  is_leap (400 * a + 100 * b + 4 * c + e + 1) = (e =? 3) && ((negb (c =? 24)) || (b =? 3)).
Proof. intros. unfold is_leap. lia. Qed.
Lemma days_parts a b c e : 0 <= b <= 3 -> 0 <= c <= 24 -> 0 <= e <= 3 ->
  days_before_year (400 * a + 100 * b + 4 * c + e + 1) = 146097 * a + 36524 * b + 1461 * c + 365 * e.
Proof. intros. unfold days_before_year. lia. Qed.
Lemma next_year y : days_before_year (y + 1) = days_before_year y + year_length y.
Proof. unfold days_before_year, year_length, is_leap. destruct (_ && _) eqn:E; lia. Qed.

(** The year and the day of the year of a number. *)
Lemma civil_year y t : 0 <= t < year_length y ->
  civil (days_before_year y + t) =
    if is_leap y && (t =? 59) then mkDate y 2 29
    else
      let d := if is_leap y && (59 <? t) then t - 1 else t in
      let m := d / 31 + 1 in
      let '(m, first) := if days_before_month (m + 1) <=? d then (m + 1, days_before_month (m + 1)) else (m, days_before_month m) in
      mkDate y m (d - first + 1).
Proof.
  intros Ht. destruct (year_parts y) as (a&b&c&e&Ey&Hb&Hc&He).
  assert (L := leap_parts a b c e Hb Hc He). assert (D := days_parts a b c e Hb Hc He). rewrite <- Ey in L, D.
  unfold year_length in Ht. unfold civil. rewrite D.
  set (n := 146097 * a + 36524 * b + 1461 * c + 365 * e + t).
  assert (E1 : n / 146097 = a) by (subst n; destruct (is_leap y); lia).
  assert (E2 : n mod 146097 = 36524 * b + 1461 * c + 365 * e + t) by (subst n; destruct (is_leap y); lia).
  cbv zeta. rewrite E1, E2. clear E1 E2. clearbody n. clear n.
  assert (E3 : (36524 * b + 1461 * c + 365 * e + t) / 36524 - (36524 * b + 1461 * c + 365 * e + t) / 36524 / 4 = b) by (destruct (is_leap y); lia).
  rewrite E3. clear E3. replace (36524 * b + 1461 * c + 365 * e + t - 36524 * b) with (1461 * c + 365 * e + t) by lia.
  assert (E4 : (1461 * c + 365 * e + t) / 1461 = c) by (destruct (is_leap y); lia). rewrite E4. clear E4.
  replace (1461 * c + 365 * e + t - 1461 * c) with (365 * e + t) by lia.
  assert (E5 : (365 * e + t) / 365 - (365 * e + t) / 365 / 4 = e) by (destruct (is_leap y); lia). rewrite E5. clear E5.
  replace (365 * e + t - 365 * e) with t by lia. replace (400 * a + 100 * b + 4 * c + e + 1) with y by lia. reflexivity.
Qed.
Definition day_of_year (d : date) : Z := days_before_month (d_month d) + (if is_leap (d_year d) && (3 <=? d_month d) then 1 else 0) + (d_day d - 1).
Lemma day_number_split d : day_number d = days_before_year (d_year d) + day_of_year d.
Proof. unfold day_number, day_of_year. lia. Qed.
Lemma day_of_year_bound d : calendar_day d -> 0 <= day_of_year d < year_length (d_year d).
Proof.
  intros [Hm Hd]%calendar_day_iff. unfold day_of_year, year_length. destruct d as [y m d]. cbn [d_month d_year d_day] in *.
  assert (m = 1 \/ m = 2 \/ m = 3 \/ m = 4 \/ m = 5 \/ m = 6 \/ m = 7 \/ m = 8 \/ m = 9 \/ m = 10 \/ m = 11 \/ m = 12) as C by lia.
  unfold days_in in Hd. destruct (is_leap y); destruct C as [C|[C|[C|[C|[C|[C|[C|[C|[C|[C|[C|C]]]]]]]]]]]; subst m; dbm; tests; lia.
Qed.
(** The number determines the day: the days of a year, one by one. *)
Definition of_month (leap : bool) (m : Z) : Z :=
  if m =? 2 then (if leap then 29 else 28) else if (m =? 4) || (m =? 6) || (m =? 9) || (m =? 11) then 30 else 31.
Definition found (leap : bool) (t : Z) : Z * Z :=
  if leap && (t =? 59) then (2, 29)
  else
    let d := if leap && (59 <? t) then t - 1 else t in
    let m := d / 31 + 1 in
    let '(m, first) := if days_before_month (m + 1) <=? d then (m + 1, days_before_month (m + 1)) else (m, days_before_month m) in
    (m, d - first + 1).
Definition finds (leap : bool) (m d : Z) : bool :=
  let '(m', d') := found leap (days_before_month m + (if leap && (3 <=? m) then 1 else 0) + (d - 1)) in (m' =? m) && (d' =? d).
Lemma finds_all : forallb (fun leap => forallb (fun m => forallb (fun d => finds leap (Z.of_nat m) (Z.of_nat d))
                    (seq 1 (Z.to_nat (of_month leap (Z.of_nat m))))) (seq 1 12)) [true; false] = true.
Proof. vm_compute. reflexivity. Qed.
Lemma found_day leap m d : 1 <= m <= 12 -> 1 <= d <= of_month leap m ->
  found leap (days_before_month m + (if leap && (3 <=? m) then 1 else 0) + (d - 1)) = (m, d).
Proof.
  intros Hm Hd. pose proof finds_all as H. rewrite forallb_forall in H. specialize (H leap ltac:(destruct leap; cbn; auto)).
  rewrite forallb_forall in H. specialize (H (Z.to_nat m) ltac:(apply in_seq; lia)). rewrite Z2Nat.id in H by lia.
  rewrite forallb_forall in H. specialize (H (Z.to_nat d) ltac:(apply in_seq; lia)). rewrite Z2Nat.id in H by lia.
  unfold finds in H. destruct (found _ _) as [m' d']. apply andb_true_iff in H. destruct H as [H1 H2]. apply Z.eqb_eq in H1, H2. now subst.
Qed.
Lemma civil_day_number d : calendar_day d -> civil (day_number d) = d.
Proof.
  intros H. rewrite day_number_split, civil_year by now apply day_of_year_bound. apply calendar_day_iff in H. destruct H as [Hm Hd].
  destruct d as [y m d]. unfold day_of_year. cbn [d_month d_year d_day] in *.
  pose proof (found_day (is_leap y) m d Hm Hd) as E. set (t := days_before_month m + _ + _) in *. clearbody t. unfold found in E. cbv zeta in *.
  destruct (is_leap y && (t =? 59)); [now injection E as <- <-|]. destruct (days_before_month _ <=? _); injection E as E1 E2; rewrite <- E2; now rewrite E1.
Qed.
Lemma tomorrow_number d : calendar_day d -> calendar_day (tomorrow d) /\ day_number (tomorrow d) = day_number d + 1.
Proof.
  intros [Hm Hd]%calendar_day_iff. rewrite calendar_day_iff. destruct d as [y m d]. unfold tomorrow. cbn [d_month d_year d_day] in *.
  rewrite <- days_in_length by exact Hm.
  destruct (d <? days_in m y) eqn:E1; [|destruct (m <? 12) eqn:E2]; cbn [d_month d_year d_day].
  - split; [lia|]. unfold day_number. cbn [d_month d_year d_day]. lia.
  - assert (1 <= days_in (m + 1) y) by (unfold days_in; destruct (_ =? 2); [destruct (is_leap y); lia|destruct (_ || _); lia]).
    split; [lia|]. unfold day_number. cbn [d_month d_year d_day]. assert (d = days_in m y) as -> by lia. unfold days_in in *.
    assert (m = 1 \/ m = 2 \/ m = 3 \/ m = 4 \/ m = 5 \/ m = 6 \/ m = 7 \/ m = 8 \/ m = 9 \/ m = 10 \/ m = 11) as C by lia.
    destruct (is_leap y); destruct C as [C|[C|[C|[C|[C|[C|[C|[C|[C|[C|C]]]]]]]]]]; subst m; cbn [Z.add Pos.add Pos.succ Pos.add_carry]; dbm; tests; lia.
  - assert (m = 12) as -> by lia. assert (d = 31) as -> by (unfold days_in in *; cbn in *; lia). split; [unfold days_in; cbn; lia|].
    rewrite !day_number_split. unfold day_of_year. cbn [d_month d_year d_day]. rewrite next_year. unfold year_length. dbm; destruct (is_leap y), (is_leap (y + 1)); tests; lia.
Qed.
(** Every number is the number of a day. *)
Lemma month_of t y : 0 <= t < year_length y -> exists d, calendar_day d /\ d_year d = y /\ day_of_year d = t.
Proof.
  intros H. unfold year_length in H.
  assert (G : forall m, 1 <= m <= 12 -> days_before_month m + (if is_leap y && (3 <=? m) then 1 else 0) <= t ->
                        t < days_before_month m + (if is_leap y && (3 <=? m) then 1 else 0) + days_in m y ->
                        exists d, calendar_day d /\ d_year d = y /\ day_of_year d = t).
  { intros m Hm H1 H2. exists (mkDate y m (t - (days_before_month m + (if is_leap y && (3 <=? m) then 1 else 0)) + 1)).
    rewrite calendar_day_iff. unfold day_of_year. cbn [d_month d_year d_day]. lia. }
  assert (C : forall k : Z, exists r, r = (if is_leap y then 1 else 0)) by (intros; eauto). destruct (C 0) as (r&Er). clear C.
  assert (0 <= r <= 1) by (destruct (is_leap y); lia).
  assert (D : t < 31 \/ 31 <= t < 59 + r \/ 59 + r <= t < 90 + r \/ 90 + r <= t < 120 + r \/ 120 + r <= t < 151 + r \/ 151 + r <= t < 181 + r \/ 181 + r <= t < 212 + r \/
              212 + r <= t < 243 + r \/ 243 + r <= t < 273 + r \/ 273 + r <= t < 304 + r \/ 304 + r <= t < 334 + r \/ 334 + r <= t) by lia.
  unfold days_in in G. destruct (is_leap y);
  destruct D as [D|[D|[D|[D|[D|[D|[D|[D|[D|[D|[D|D]]]]]]]]]]];
  [apply (G 1)|apply (G 2)|apply (G 3)|apply (G 4)|apply (G 5)|apply (G 6)|apply (G 7)|apply (G 8)|apply (G 9)|apply (G 10)|apply (G 11)|apply (G 12)|
   apply (G 1)|apply (G 2)|apply (G 3)|apply (G 4)|apply (G 5)|apply (G 6)|apply (G 7)|apply (G 8)|apply (G 9)|apply (G 10)|apply (G 11)|apply (G 12)]; dbm; tests; lia.
Qed.
Lemma year_of n : exists y, days_before_year y <= n < days_before_year y + year_length y.
Proof.
  assert (P : forall k : nat, exists y, days_before_year y <= Z.of_nat k < days_before_year y + year_length y).
  { induction k as [|k (y&IH)]; [exists 1; cbn; lia|].
    destruct (Z_lt_le_dec (Z.of_nat (S k)) (days_before_year y + year_length y)); [exists y; lia|].
    exists (y + 1). rewrite next_year. unfold year_length at 3. destruct (is_leap (y + 1)); lia. }
  assert (N : forall k : nat, exists y, days_before_year y <= - Z.of_nat k < days_before_year y + year_length y).
  { induction k as [|k (y&IH)]; [exists 1; cbn; lia|].
    destruct (Z_lt_le_dec (- Z.of_nat (S k)) (days_before_year y)); [|exists y; lia].
    exists (y - 1). pose proof (next_year (y - 1)) as E. replace (y - 1 + 1) with y in E by lia. unfold year_length in *. destruct (is_leap (y - 1)), (is_leap y); lia. }
  destruct (Z_lt_le_dec n 0).
  - destruct (N (Z.to_nat (- n))) as (y&H). exists y. rewrite Z2Nat.id in H by lia. now replace (- - n) with n in H by lia.
  - destruct (P (Z.to_nat n)) as (y&H). exists y. now rewrite Z2Nat.id in H by lia.
Qed.
Lemma civil_number n : calendar_day (civil n) /\ day_number (civil n) = n.
Proof.
  destruct (year_of n) as (y&Hy). destruct (month_of (n - days_before_year y) y ltac:(lia)) as (d&Hd&E1&E2).
  assert (E : day_number d = n) by (rewrite day_number_split, E1, E2; lia). rewrite <- E. now rewrite civil_day_number.
Qed.
Lemma days_later_civil k : forall n, days_later k (civil n) = civil (n + Z.of_nat k).
Proof.
  induction k as [|k IH]; intros n; [now rewrite Z.add_0_r|]. cbn [days_later]. rewrite IH.
  destruct (civil_number (n + Z.of_nat k)) as [C N]. destruct (tomorrow_number _ C) as [C' N'].
  rewrite <- (civil_day_number _ C'), N', N. f_equal. lia.
Qed.
