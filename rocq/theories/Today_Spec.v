(** * Days on calendars and clocks *)
From Verif Require Import Base Codec_Model Time_Model Cli_Model Cli_Spec Today_Model.
Open Scope Z_scope.

(** The day a calendar at the place of a time shows: [k] days have passed since the 1st of
    January of the year 1, and day number [k] has begun and is not over. *)
Definition shows_day (t : gotime) (d : date) : Prop :=
  exists k, 86400 * Z.of_nat k <= gt_local t < 86400 * (Z.of_nat k + 1) /\ d = days_later k (mkDate 1 1 1).
(** A date without a time: midnight in UTC. *)
Definition is_short_date (t : gotime) : Prop := gt_zone t = utc /\ exists n, gt_instant t = 86400 * n.
