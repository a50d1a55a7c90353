(** * Specification vocabulary for groups, segments and messages *)
From Verif Require Import Base Lexer_Model Lexer_Spec Codec_Model Codec_Spec Wire_Model.
Open Scope Z_scope.

(** A list without its trailing empty strings (absent elements). *)
Fixpoint strip (ls : list bytes) : list bytes :=
  match ls with
  | [] => []
  | x :: r => match x, strip r with
              | [], [] => []
              | _, r' => x :: r'
              end
  end.
(** The last non-empty string ([[]] if there is none). *)
Definition last_present (ls : list bytes) : bytes := last (strip ls) [].
Definition ends_with (c : byte) (b : bytes) : Prop := exists p, b = p ++ [c].

(** Values that a receiver can tell apart from structure: text without NUL that
    does not look like a number with superfluous leading zeros and a comma,
    finite or negative floats, real dates and times. *)
Definition elem_safe (e : elem) : Prop :=
  match e with
  | EText v => ~ In b_nul v /\ malformed_float v = false
  | EFloat (FNum _ _ frac) => forallb is_digit frac = true
  | EFloat (FInf neg) => neg = true
  | EDate d => real_date d
  | ETime t => real_time t
  | _ => True
  end.

(** All basic elements are safe, and no group has a last present component whose
    wire form ends in ':'. *)
Fixpoint wire_safe (d : delem) : Prop :=
  match d with
  | DE e => elem_safe e
  | DEG cs =>
      (fix all (l : list (option delem)) : Prop :=
         match l with
         | [] => True
         | Some x :: r => wire_safe x /\ all r
         | None :: r => all r
         end) cs /\
      forall bs, all_ok marshal_opt cs = Ok bs -> ~ ends_with b_colon (last_present bs)
  end.
Definition opt_safe (o : option delem) : Prop := match o with Some d => wire_safe d | None => True end.

(** A basic element or a group of basic elements: no groups inside groups. *)
Definition flat (d : delem) : Prop :=
  match d with
  | DE _ => True
  | DEG cs => Forall (fun o => match o with Some (DEG _) => False | _ => True end) cs
  end.

(** The ID of a segment: the bytes before its first ':'. *)
Definition has_id (id s : bytes) : Prop :=
  ~ In b_colon id /\ (s = id \/ exists r, s = id ++ b_colon :: r).
Definition starts_with (id s : bytes) : Prop := exists r, s = id ++ r.
