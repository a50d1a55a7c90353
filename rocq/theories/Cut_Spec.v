(** * Where reading a SWIFT message stops, and what the error says *)
From Verif Require Import Base Lexer_Model Swift_Model Swift_Spec.
Open Scope Z_scope.

(** [reaches k s g rest]: after some tokens of [s], read from [k], [rest] is to be read as [g]. *)
Inductive reaches : goal -> bytes -> goal -> bytes -> Prop :=
| reaches_here k s : reaches k s k s
| reaches_next k s ty n k' g rest : next_token k s = GTok ty n k' -> reaches k' (skipn n s) g rest -> reaches k s g rest.

(** A carriage return without a line feed. *)
Definition lone_cr (s : bytes) : bool :=
  match s with c :: r => beq c b_cr && match r with d :: _ => negb (beq d b_lf) | [] => true end | [] => false end.
(** A tag without a digit after its colon. *)
Definition no_digit (s : bytes) : bool :=
  match (match s with c :: r => if beq c b_colon then r else s | [] => s end) with d :: _ => negb (is_digit d) | [] => true end.

(** The text of the error if [rest] cannot be read as [g]. *)
Definition stop_text (g : goal) (rest : bytes) : bytes :=
  match g with
  | GEntry => B "Malformed swift dataset"
  | GTag => if no_digit rest then B "malformed swift tag identifier: must start with a digit"
            else B "malformed swift tag identifier: must be enclodes by ':'"
  | GStart => if lone_cr rest then B "Malformed syntax symbol" else B "unexpected end of input"
  end.

(** A dataset that ends after complete fields and [cut]. *)
Definition cut_dataset (ts : list field) (cut : bytes) : bytes :=
  crlf ++ List.concat (map (fun t => field_bytes t ++ crlf) ts) ++ cut.
(** The part of a field before its value. *)
Definition tag_of (t : field) : bytes :=
  [b_colon] ++ f_number t ++ (match f_letter t with Some l => [l] | None => [] end) ++ [b_colon].
