(** * What a tag says *)
From Verif Require Import Base Accept_Spec Tags_Model.
Open Scope Z_scope.

Section Says.
  Context {F : Type} (parse_float : bytes -> option F).
  (** The value of kind [k] that a text stands for. *)
  Inductive stands_for : kind -> bytes -> value F -> Prop :=
  | StandsText w : stands_for Alphanumeric w (VText w)
  | StandsNumber w n : integer_of w n -> stands_for Numeric w (VNumber n)
  | StandsFloat w x : parse_float w = Some x -> stands_for Float w (VFloat x).
  (** A tag is a name between two colons and its value. *)
  Definition says (k : kind) (w : bytes) (id : bytes) (v : value F) : Prop :=
    exists name rest, ~ In b_colon name /\ id = b_colon :: name ++ [b_colon] /\ w = id ++ rest /\ stands_for k rest v.
  (** The last text of a list that says something, if there is one. *)
  Inductive last_said (k : kind) : list bytes -> bytes -> value F -> Prop :=
  | LastSaid before w after id v : says k w id v -> Forall (fun w' => forall id' v', ~ says k w' id' v') after ->
      last_said k (before ++ w :: after) id v.
End Says.
