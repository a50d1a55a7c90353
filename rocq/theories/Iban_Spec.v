(** * Specification vocabulary for IBANs (ISO 13616, ISO 7064) *)
From Verif Require Import Base Lexer_Model.
Open Scope Z_scope.

Definition is_upper (c : byte) : bool := (65 <=? zb c) && (zb c <=? 90).
Definition is_lower (c : byte) : bool := (97 <=? zb c) && (zb c <=? 122).
Definition is_letter (c : byte) : bool := is_upper c || is_lower c.
Definition alnum (c : byte) : bool := is_digit c || is_letter c.

(** The value of a character: digits 0..9, letters 10..35 whatever their case. *)
Definition value (c : byte) : Z :=
  if is_digit c then zb c - 48 else if is_upper c then zb c - 55 else zb c - 87.
(** The number a text stands for: its characters' values written one after the other. *)
Definition number (l : bytes) : Z :=
  fold_left (fun n c => (if is_digit c then 10 else 100) * n + value c) l 0.
(** The check of ISO 7064: the first four characters moved to the end, modulo 97. *)
Definition check97 (i : bytes) : Prop := number (skipn 4 i ++ firstn 4 i) mod 97 = 1.
(** The check number that belongs to a country and an account number. *)
Definition check_number (cc bban : bytes) : Z := 98 - number (bban ++ cc ++ B "00") mod 97.

(** The upper case form of an ASCII text. *)
Definition up (c : byte) : byte :=
  if is_lower c then match Byte.of_N (Byte.to_N c - 32) with Some d => d | None => c end else c.

(** Two different pairs of a digit and a letter have the same number in both orders:
    "1B" and "B1" are 111, "2M" and "M2" are 222, "3X" and "X3" are 333. *)
Definition blind_pair (x y : byte) : Prop :=
  (value x = 1 /\ value y = 11) \/ (value x = 2 /\ value y = 22) \/ (value x = 3 /\ value y = 33).

(** The paper form: groups of four characters with one space between two groups, the
    last group may be shorter. *)
Inductive paper : bytes -> bytes -> Prop :=
| paper_last i : (1 <= List.length i <= 4)%nat -> paper i i
| paper_more a b c d r t : r <> [] -> paper r t -> paper (a :: b :: c :: d :: r) (a :: b :: c :: d :: " "%byte :: t).
