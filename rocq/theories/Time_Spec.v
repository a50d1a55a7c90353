(** * Specification vocabulary for dates and timeframes *)
From Verif Require Import Base Codec_Model Codec_Spec Time_Model.
Open Scope Z_scope.

(** 2006-01-02, digit by digit. *)
Definition iso_date (d : date) : bytes :=
  digits2 (d_year d / 100) ++ digits2 (d_year d mod 100) ++ B "-" ++
  digits2 (d_month d) ++ B "-" ++ digits2 (d_day d).
Definition real_timeframe (tf : timeframe) : Prop := real_date (tf_start tf) /\ real_date (tf_end tf).
(** The date of an uninitialised value. *)
Definition uninitialised : date := mkDate 1 1 1.
Definition quoted (s : bytes) : bytes := """"%byte :: s ++ [""""%byte].
(** What a query says under a key: the first value of the first entry for it. *)
Inductive says : values -> bytes -> bytes -> Prop :=
| says_here k v vs r : says ((k, v :: vs) :: r) k v
| says_later k v k' vs r : k' <> k -> says r k v -> says ((k', vs) :: r) k v.
(** Printable text without quotes and backslashes. *)
Definition plain_text (s : bytes) : Prop :=
  forall c, In c s -> 32 <= zb c < 127 /\ c <> """"%byte /\ c <> "\"%byte.
