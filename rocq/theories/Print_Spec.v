(** * How tables should look *)
From Verif Require Import Base Print_Model.
Open Scope nat_scope.

(** A text without characters that mean something to the table: tabs, line ends, form feeds
    and the byte 255, which is in no text in UTF-8. *)
Definition clean (t : bytes) : Prop := Forall (fun b => b <> x09 /\ b <> x0a /\ b <> x0b /\ b <> x0c /\ b <> xff) t.
Definition row : Type := list bytes.
Definition clean_row (r : row) : Prop := r <> [] /\ Forall clean r.

(** Rows as they are written: cells separated by tabs, rows ended by line ends; [open] is what
    follows the last line end. *)
Definition written (rows : list row) (open : row) : bytes :=
  flat_map (fun r => join [x09] r ++ [x0a]) rows ++ join [x09] open.
(** An open row that ends with an empty cell has none there. *)
Definition open_row (r : row) : row := match rev r with [] :: rest => rev rest | _ => r end.

(** Only cells that another one follows are aligned. *)
Definition aligned (j : nat) (r : row) : Prop := j + 1 < List.length r.
(** Rows [i] and [k] belong together in column [j]: all rows from one to the other have an
    aligned cell there. *)
Definition together (rows : list row) (j i k : nat) : Prop :=
  forall n, i <= n <= k \/ k <= n <= i -> exists r, nth_error rows n = Some r /\ aligned j r.
Definition width_at (rows : list row) (k j : nat) : nat := rune_count (nth j (nth k rows []) []).
(** The width of column [j] in row [i]: the number of characters of the longest cell of the
    rows it belongs together with, at least [least]. *)
Definition column_width (least : nat) (rows : list row) (i j w : nat) : Prop :=
  least <= w /\ (forall k, together rows j i k -> width_at rows k j <= w) /\
  (w = least \/ exists k, together rows j i k /\ width_at rows k j = w).

(** A row with columns of the given widths: [gap lead n w] fills a cell of [n] characters up
    to [w]; [lead] if it and all cells before are empty.  The last cell is not filled. *)
Section Row.
  Variable bar : bytes.
  Variable gap : bool -> nat -> nat -> bytes.
  Variable w : nat -> nat.
  Fixpoint laid (j : nat) (lead : bool) (r : row) : bytes :=
    match r with
    | [] => []
    | [t] => (if j =? 0 then [] else bar) ++ t
    | t :: rest => let lead := lead && match t with [] => true | _ => false end in
                   (if j =? 0 then [] else bar) ++ t ++ gap lead (rune_count t) (w j) ++ laid (S j) lead rest
    end.
End Row.
(** Spaces, but tabs for empty cells at the beginning of a row. *)
Definition spaces (lead : bool) (n w : nat) : bytes := repeat (if lead then x09 else x20) (w - n).
Definition spaced (w : nat -> nat) (r : row) : bytes := laid [] spaces w 0 true r.
Definition lines (f : row -> bytes) (rows : list row) : bytes := flat_map (fun r => f r ++ [x0a]) rows.

(** The number of characters of the longest cell in column [j], at least [least]. *)
Definition widest (least j : nat) (rows : list row) (w : nat) : Prop :=
  least <= w /\ (forall r, In r rows -> rune_count (nth j r []) <= w) /\
  (w = least \/ exists r, In r rows /\ rune_count (nth j r []) = w).
