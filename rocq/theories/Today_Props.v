(** * C82: dates without a time, and timeframes up to today *)
From Coq Require Import Lia.
From Verif Require Import Base BaseFacts Codec_Model Time_Model Cli_Model Cli_Spec Cli_Dates Today_Model Today_Spec.
Open Scope Z_scope.

Lemma midnight_eq y m d : 1 <= m <= 12 -> utc_midnight y m d = mkTime (day_number (mkDate y m d) * 86400) utc.
Proof.
  intros H. unfold utc_midnight. cbv zeta. rewrite (Z.div_small (m - 1) 12), (Z.mod_small (m - 1) 12) by lia. unfold day_number. cbn [d_year d_month d_day].
  replace (y + 0) with y by lia. replace (m - 1 + 1) with m by lia. f_equal. f_equal. lia.
Qed.
Lemma midnight_day n : gt_date (mkTime (n * 86400) utc) = civil n.
Proof. unfold gt_date, gt_local, utc. cbn [gt_instant gt_zone]. f_equal. rewrite Z.add_0_r. apply Z.div_mul. lia. Qed.
Lemma date_eta d : mkDate (d_year d) (d_month d) (d_day d) = d.
Proof. now destruct d. Qed.
Lemma short_eq d loc : calendar_day d -> short_date (d_year d) (d_month d) (d_day d) loc = mkTime (day_number d * 86400) utc.
Proof. intros (Hm&_). unfold short_date. rewrite midnight_eq by exact Hm. now rewrite date_eta. Qed.
Lemma new_instant t : new_short_date t = mkTime ((gt_local t / 86400) * 86400) utc.
Proof.
  unfold new_short_date. cbv zeta. unfold gt_date. destruct (civil_number (gt_local t / 86400)) as (C&N). rewrite (short_eq _ _ C), N. reflexivity.
Qed.

(** What Year, Month and Day say is the day on a calendar at that place. *)
Theorem C82_day : forall t, 0 <= gt_local t -> shows_day t (gt_date t).
Proof.
  intros t H. exists (Z.to_nat (gt_local t / 86400)). assert (0 <= gt_local t / 86400) by (apply Z.div_pos; lia). rewrite Z2Nat.id by lia.
  pose proof (Z.div_mod (gt_local t) 86400 ltac:(lia)) as D. pose proof (Z.mod_pos_bound (gt_local t) 86400 ltac:(lia)) as M. split; [lia|].
  change (mkDate 1 1 1) with (civil 0). rewrite days_later_civil. unfold gt_date. f_equal. lia.
Qed.
(** NewShortDate: the same day, at midnight UTC; of a short date it is that date. *)
Theorem C82_new_short_date : forall t, is_short_date (new_short_date t) /\ gt_date (new_short_date t) = gt_date t /\
  (is_short_date t -> new_short_date t = t).
Proof.
  intros t. rewrite new_instant. split; [split; [reflexivity|exists (gt_local t / 86400); cbn [gt_instant]; lia]|]. split; [apply midnight_day|].
  intros (Hz&n&Hn). destruct t as [i z]. cbn [gt_zone gt_instant] in *. subst z i. unfold gt_local, utc. cbn [gt_instant gt_zone]. f_equal.
  rewrite Z.add_0_r, (Z.mul_comm 86400 n), Z.div_mul by lia. lia.
Qed.
(** Date: the calendar day given; days beyond the month and months beyond the year go on
    counting. *)
Theorem C82_date : forall loc,
  (forall d, calendar_day d -> is_short_date (short_date (d_year d) (d_month d) (d_day d) loc) /\ gt_date (short_date (d_year d) (d_month d) (d_day d) loc) = d) /\
  (forall y m n, 1 <= m <= 12 -> gt_date (short_date y m (1 + Z.of_nat n) loc) = days_later n (mkDate y m 1)) /\
  (forall y m d k, short_date y (m + 12 * k) d loc = short_date (y + k) m d loc).
Proof.
  intros loc. split; [|split].
  - intros d H. rewrite (short_eq d loc H). split; [split; [reflexivity|exists (day_number d); cbn [gt_instant]; lia]|]. rewrite midnight_day. now apply civil_day_number.
  - intros y m n H. unfold short_date. rewrite (midnight_eq y m (1 + Z.of_nat n) H), midnight_day. assert (C : calendar_day (mkDate y m 1)).
    { apply calendar_day_iff. cbn [d_year d_month d_day]. split; [exact H|]. unfold days_in. destruct (m =? 2); [destruct (is_leap y); lia|]. destruct ((m =? 4) || (m =? 6) || (m =? 9) || (m =? 11)); lia. }
    rewrite <- (civil_day_number _ C) at 1. rewrite days_later_civil. f_equal. unfold day_number. cbn [d_year d_month d_day]. lia.
  - intros y m d k. unfold short_date, utc_midnight. cbv zeta. replace (m + 12 * k - 1) with (m - 1 + k * 12) by lia. rewrite Z.div_add, Z.mod_add by lia. replace (y + ((m - 1) / 12 + k)) with (y + k + (m - 1) / 12) by lia. reflexivity.
Qed.
(** Refuted: that the location of Date matters. *)
Theorem C82_location_refuted : forall y m d loc loc', short_date y m d loc = short_date y m d loc'.
Proof. reflexivity. Qed.

(** TimeframeFromDate of a short date: from that date to the day it is in UTC. *)
Theorem C82_timeframe : forall now d, is_short_date d ->
  fst (timeframe_from_date now d) = d /\ is_short_date (snd (timeframe_from_date now d)) /\
  gt_date (snd (timeframe_from_date now d)) = gt_date (gt_in utc now) /\
  (gt_before (snd (timeframe_from_date now d)) (fst (timeframe_from_date now d)) = true <-> gt_instant now < gt_instant d).
Proof.
  intros now d (Hz&n&Hn). unfold timeframe_from_date. cbn [fst snd]. rewrite Hz. split; [reflexivity|]. split; [apply C82_new_short_date|]. split; [apply C82_new_short_date|].
  rewrite new_instant. unfold gt_before, gt_in, gt_local, utc. cbn [gt_instant gt_zone]. rewrite Hn, Z.ltb_lt, Z.add_0_r.
  pose proof (Z.div_mod (gt_instant now) 86400 ltac:(lia)) as D. pose proof (Z.mod_pos_bound (gt_instant now) 86400 ltac:(lia)) as M. nia.
Qed.
(** The timeframe from today, the day at the place where it is asked for: it is not empty
    exactly if the day there is not ahead of the day in UTC. *)
Theorem C82_today : forall now, -86400 < gt_zone now (gt_instant now) < 86400 ->
  let tf := timeframe_from_date now (new_short_date now) in
  (gt_before (snd tf) (fst tf) = true <-> 86400 <= gt_instant now mod 86400 + gt_zone now (gt_instant now)) /\
  (gt_before (snd tf) (fst tf) = true -> gt_date (fst tf) = tomorrow (gt_date (snd tf))).
Proof.
  intros now Ho tf. destruct (C82_timeframe now (new_short_date now) (proj1 (C82_new_short_date now))) as (E1&_&E2&E3). fold tf in E1, E2, E3.
  set (o := gt_zone now (gt_instant now)) in *. set (i := gt_instant now) in *.
  assert (K : gt_instant (new_short_date now) = (i + o) / 86400 * 86400) by (rewrite new_instant; reflexivity). rewrite K in E3.
  pose proof (Z.div_mod i 86400 ltac:(lia)) as D. pose proof (Z.mod_pos_bound i 86400 ltac:(lia)) as M.
  pose proof (Z.div_mod (i + o) 86400 ltac:(lia)) as D'. pose proof (Z.mod_pos_bound (i + o) 86400 ltac:(lia)) as M'.
  assert (X : gt_before (snd tf) (fst tf) = true <-> 86400 <= i mod 86400 + o) by (rewrite E3; nia). split; [exact X|].
  intros H. apply X in H. rewrite E1, (proj1 (proj2 (C82_new_short_date now))), E2. unfold gt_date.
  replace (gt_local now / 86400) with (i / 86400 + 1) by (unfold gt_local; fold i; fold o; nia).
  replace (gt_local (gt_in utc now) / 86400) with (i / 86400) by (unfold gt_local, gt_in, utc; cbn [gt_instant gt_zone]; fold i; now rewrite Z.add_0_r).
  change (i / 86400 + 1) with (i / 86400 + Z.of_nat 1). rewrite <- days_later_civil. reflexivity.
Qed.
(** So west of Greenwich and in UTC it never is empty, and east of it, however little, it is
    once every day: that a timeframe from today has today in it is refuted. *)
Theorem C82_west : forall now, -86400 < gt_zone now (gt_instant now) <= 0 ->
  let tf := timeframe_from_date now (new_short_date now) in gt_before (snd tf) (fst tf) = false.
Proof.
  intros now H tf. destruct (C82_today now ltac:(lia)) as (X&_). fold tf in X. destruct (gt_before (snd tf) (fst tf)); [|reflexivity]. exfalso.
  pose proof (Z.mod_pos_bound (gt_instant now) 86400 ltac:(lia)). pose proof (proj1 X eq_refl). lia.
Qed.
Theorem C82_east_refuted : forall o day, 0 < o < 86400 ->
  let now := mkTime (86400 * day + (86400 - o)) (fun _ => o) in
  let tf := timeframe_from_date now (new_short_date now) in gt_before (snd tf) (fst tf) = true.
Proof.
  intros o day Ho now tf. destruct (C82_today now) as (X&_); [cbn; lia|]. fold tf in X. apply X. unfold now. cbn [gt_instant gt_zone].
  replace (86400 * day + (86400 - o)) with (86400 - o + day * 86400) by lia. rewrite Z.mod_add, Z.mod_small by lia. lia.
Qed.
(** String: both dates with their time of day and zone, in braces of their own. *)
Theorem C82_string : forall a b, calendar_day a -> calendar_day b -> forall loc,
  let short d := short_date (d_year d) (d_month d) (d_day d) loc in
  timeframe_text (short a, short b) = B "{{" ++ format_iso a ++ B " 00:00:00 +0000 UTC}-{" ++ format_iso b ++ B " 00:00:00 +0000 UTC}}".
Proof.
  intros a b Ha Hb loc. cbv zeta. unfold timeframe_text, time_text. cbn [fst snd].
  rewrite (proj2 (proj1 (C82_date loc) a Ha)), (proj2 (proj1 (C82_date loc) b Hb)). cbn [app]. repeat rewrite <- app_assoc. reflexivity.
Qed.
Print Assumptions C82_day.
Print Assumptions C82_new_short_date.
Print Assumptions C82_date.
Print Assumptions C82_location_refuted.
Print Assumptions C82_timeframe.
Print Assumptions C82_today.
Print Assumptions C82_west.
Print Assumptions C82_east_refuted.
Print Assumptions C82_string.

(** Half past midnight on 2 January 2015 in Berlin. *)
Definition berlin : Z -> Z := fun _ => 3600.
Definition half_past : gotime := mkTime (86400 * day_number (mkDate 2015 1 1) + 23 * 3600 + 1800) berlin.
Example C82_berlin : 0 <= gt_local half_past /\ gt_date half_past = mkDate 2015 1 2 /\ is_short_date (new_short_date half_past) /\
  let tf := timeframe_from_date half_past (new_short_date half_past) in
  gt_date (fst tf) = mkDate 2015 1 2 /\ gt_date (snd tf) = mkDate 2015 1 1 /\
  timeframe_text tf = B "{{2015-01-02 00:00:00 +0000 UTC}-{2015-01-01 00:00:00 +0000 UTC}}".
Proof. cbv zeta. split; [vm_compute; discriminate|]. split; [reflexivity|]. split; [apply C82_new_short_date|]. split; [reflexivity|]. split; reflexivity. Qed.
Example C82_overflow : gt_date (short_date 2015 2 30 utc) = mkDate 2015 3 2 /\ gt_date (short_date 2014 14 1 utc) = mkDate 2015 2 1 /\ gt_date (short_date 2015 1 0 utc) = mkDate 2014 12 31.
Proof. split; [|split]; reflexivity. Qed.
