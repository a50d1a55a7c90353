(** * What a reader of messages should find *)
From Verif Require Import Base Codec_Model Wire_Model Wire_Spec Message_Model Lookup_Model.
Open Scope Z_scope.

Section Spec.
  Context {P : Type} (others : bytes -> Z -> option (bytes -> outcome P)).

  (** [found segs l]: every segment has a readable header, those of a known ID and version
      are readable, and [l] has these with their IDs in order. *)
  Inductive found : list bytes -> list (bytes * parsed P) -> Prop :=
  | found_none : found [] []
  | found_unknown s h segs l : extract_header s = Ok h -> known others (sh_id h) (sh_version h) = None -> found segs l -> found (s :: segs) l
  | found_known s h read p segs l : extract_header s = Ok h -> known others (sh_id h) (sh_version h) = Some read -> read s = Ok p ->
      found segs l -> found (s :: segs) ((sh_id h, p) :: l).
  (** A segment that is not readable. *)
  Definition broken (s : bytes) (o : outcome unit) : Prop :=
    (omap (fun _ => tt) (extract_header s) = o /\ o <> Ok tt) \/
    exists h read, extract_header s = Ok h /\ known others (sh_id h) (sh_version h) = Some read /\ omap (fun _ => tt) (read s) = o /\ o <> Ok tt.

  (** [copies n l]: l, n times. *)
  Fixpoint copies {A} (n : nat) (l : list A) : list A := match n with O => [] | S n => l ++ copies n l end.
  (** How often the message has been divided into segments after a history, and how many
      divisions have been read: the k-th division reads k times. *)
  Definition divides (o : um_op) : nat :=
    match o with Unmarshal => 1 | UnmarshalSegment id v => match known others id v with Some _ => 1 | None => 0 end end.
  Fixpoint divisions (h : list um_op) : nat := match h with [] => 0 | o :: r => divides o + divisions r end.
  Fixpoint readings (before : nat) (h : list um_op) : nat :=
    match h with
    | [] => 0
    | Unmarshal :: r => S before + readings (S before) r
    | o :: r => readings (divides o + before) r
    end.
  (** The position a segment states. *)
  Definition states_position (s : bytes) (n : Z) : Prop := exists h, extract_header s = Ok h /\ sh_pos h = n.
End Spec.
