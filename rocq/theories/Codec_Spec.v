(** * Specification vocabulary for the codec properties *)
From Verif Require Import Base Codec_Model Lexer_Model Lexer_Spec.
Open Scope Z_scope.

(** UTF-8 encoding of a code point (RFC 3629). *)
Definition utf8_enc (cp : Z) : bytes :=
  if cp <? 128 then [byte_of_Z cp]
  else if cp <? 2048 then [byte_of_Z (192 + cp / 64); byte_of_Z (128 + cp mod 64)]
  else if cp <? 65536 then
    [byte_of_Z (224 + cp / 4096); byte_of_Z (128 + cp / 64 mod 64); byte_of_Z (128 + cp mod 64)]
  else [byte_of_Z (240 + cp / 262144); byte_of_Z (128 + cp / 4096 mod 64);
        byte_of_Z (128 + cp / 64 mod 64); byte_of_Z (128 + cp mod 64)].
(** Unicode scalar values. *)
Definition unicode (cp : Z) : Prop := 0 <= cp < 55296 \/ 57344 <= cp < 1114112.
Definition string_of (cps : list Z) : bytes := flat_map utf8_enc cps.
Definition latin1_char (cp : Z) : Prop := 0 <= cp <= 255.

(** A Go string all of whose characters are Latin-1. *)
Definition latin1_string (s : bytes) : Prop :=
  exists cps, Forall latin1_char cps /\ s = string_of cps.

(** The Gregorian calendar. *)
Definition leap_year (y : Z) : bool :=
  if y mod 400 =? 0 then true else if y mod 100 =? 0 then false else y mod 4 =? 0.
Definition month_lengths (y : Z) : list Z :=
  [31; if leap_year y then 29 else 28; 31; 30; 31; 30; 31; 31; 30; 31; 30; 31].
Definition month_length (y m : Z) : Z := nth (Z.to_nat (m - 1)) (month_lengths y) 0.

(** A real calendar date / time of day. *)
Definition real_date (d : date) : Prop :=
  0 <= d_year d <= 9999 /\ 1 <= d_month d <= 12 /\ 1 <= d_day d <= month_length (d_year d) (d_month d).
Definition real_time (t : tod) : Prop :=
  0 <= t_hour t < 24 /\ 0 <= t_min t < 60 /\ 0 <= t_sec t < 60.

(** Text that the lexer would take for a malformed number: "0", more digits,
    then ','. *)
Definition malformed_float (v : bytes) : bool :=
  match v with
  | c :: _ => beq c b_zero && (2 <=? len (take_digits v)) &&
              match drop_digits v with d :: _ => beq d b_comma | [] => false end
  | [] => false
  end.

(** [escaped_form v w]: w is v with a '?' put before each of ? @ ' : + . *)
Inductive escaped_form : bytes -> bytes -> Prop :=
| ef_nil : escaped_form [] []
| ef_plain c v w : ~ In c (B "?@':+") -> escaped_form v w -> escaped_form (c :: v) (c :: w)
| ef_special c v w : In c (B "?@':+") -> escaped_form v w -> escaped_form (c :: v) ("?"%byte :: c :: w).

(** Renderings of dates and times digit by digit. *)
Definition digits2 (z : Z) : bytes := [digit_char (Z.to_N (z / 10)); digit_char (Z.to_N (z mod 10))].
Definition yyyymmdd (d : date) : bytes :=
  digits2 (d_year d / 100) ++ digits2 (d_year d mod 100) ++ digits2 (d_month d) ++ digits2 (d_day d).
Definition hhmmss (t : tod) : bytes := digits2 (t_hour t) ++ digits2 (t_min t) ++ digits2 (t_sec t).
(** Fractional seconds: nothing, or ',' or '.' and at least one digit. *)
Definition fraction (f : bytes) : Prop :=
  f = [] \/ exists c ds, f = c :: ds /\ (c = ","%byte \/ c = "."%byte) /\ ds <> [] /\ forallb is_digit ds = true.
