(** * Short dates and timeframes made from times

    domain/time.go:11-25 ShortDate, NewShortDate, Date; 70-73 TimeframeFromDate; 136-138
    Timeframe.String.  Years and days are unbounded here, int in Go. *)
From Verif Require Import Base Codec_Model Time_Model Cli_Model.
Open Scope Z_scope.

(** A time.Time: seconds since the beginning of 1 January of the year 1 in UTC, and its
    location, by how many seconds local time is ahead of UTC at an instant.
    Simplification: no fractions of seconds, no monotonic clock. *)
Record gotime := mkTime { gt_instant : Z; gt_zone : Z -> Z }.
Definition utc : Z -> Z := fun _ => 0.
(** What clocks there show, in seconds since the same beginning *)
Definition gt_local (t : gotime) : Z := gt_instant t + gt_zone t (gt_instant t).
(** Go's src/time/time.go: Time.Date (Year, Month and Day) *)
Definition gt_date (t : gotime) : date := civil (gt_local t / 86400).
(** Time.In and Time.Before *)
Definition gt_in (loc : Z -> Z) (t : gotime) : gotime := mkTime (gt_instant t) loc.
Definition gt_before (t u : gotime) : bool := gt_instant t <? gt_instant u.
(** time.Date(year, month, day, 0, 0, 0, 0, time.UTC): months out of range go to other
    years, days out of range to other months *)
Definition utc_midnight (y m d : Z) : gotime :=
  let m0 := m - 1 in
  mkTime ((day_number (mkDate (y + m0 / 12) (m0 mod 12 + 1) 1) + (d - 1)) * 86400) utc.

(** domain/time.go:23-25 Date; the location is not used *)
Definition short_date (y m d : Z) (location : Z -> Z) : gotime := utc_midnight y m d.
(** domain/time.go:18-20 NewShortDate *)
Definition new_short_date (t : gotime) : gotime :=
  let d := gt_date t in short_date (d_year d) (d_month d) (d_day d) (gt_zone t).
(** domain/time.go:70-73 TimeframeFromDate; [now] is time.Now() *)
Definition timeframe_from_date (now : gotime) (d : gotime) : gotime * gotime :=
  (d, new_short_date (gt_in (gt_zone d) now)).

(** domain/time.go:136-138 Timeframe.String for dates at midnight UTC.  The method String
    of ShortDate has a pointer as receiver and is not found for the values passed to
    Sprintf; fmt prints them as structs, with the method String of the time.Time in them. *)
Definition time_text (t : gotime) : bytes := format_iso (gt_date t) ++ B " 00:00:00 +0000 UTC".
Definition timeframe_text (tf : gotime * gotime) : bytes :=
  B "{" ++ (B "{" ++ time_text (fst tf) ++ B "}") ++ B "-" ++ (B "{" ++ time_text (snd tf) ++ B "}") ++ B "}".
