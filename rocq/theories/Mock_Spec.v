(** * What a scripted transport is asked, and what it should answer *)
From Verif Require Import Base Transport_Spec Mock_Model.
Open Scope Z_scope.

Section Mock.
  Context {R : Type}.
  Notation op := (@op R).

  (** The calls after the last one of a certain kind. *)
  Fixpoint since (kind : op -> bool) (h : list op) : list op :=
    match h with
    | [] => []
    | o :: r => if existsb kind h then since kind r else h
    end.
  Definition resets (o : op) : bool := match o with Reset => true | _ => false end.
  Definition rewinds (o : op) : bool := match o with Reset | SetPayload _ | SetPayloads _ => true | _ => false end.
  (** The requests that were sent. *)
  Definition sent (h : list op) : list R := flat_map (fun o => match o with Send r => [r] | _ => [] end) h.

  (** The answers to requests if the payloads are played in order: request by request the
      next payload in a response whose body is its Base64 form, and an error that shows
      the request if none is left. *)
  Variable body_of : R -> option bytes.
  Inductive plays (m : @mock R) : list bytes -> list R -> list (@answer R) -> Prop :=
  | plays_end ps : plays m ps [] []
  | plays_payload p ps r rs x l : left_of m x = rfc4648 p -> rs_length x = zlen p -> plays m ps rs l ->
      plays m (p :: ps) (r :: rs) (Response (Some x) None :: l)
  | plays_nothing r rs b l : body_of r = Some b -> plays m [] rs l ->
      plays m [] (r :: rs) (Response None (Some (r, b)) :: l).
End Mock.
