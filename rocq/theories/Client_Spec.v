(** * Specification vocabulary for the client *)
From Verif Require Import Base Lexer_Model Codec_Model Wire_Model Message_Model Dialog_Model Dialog_Spec Client_Model.
Open Scope Z_scope.

(** [v] is the highest version in both lists. *)
Definition highest_common (offered implemented : list Z) (v : Z) : Prop :=
  In v offered /\ In v implemented /\
  forall v', In v' offered -> In v' implemented -> v' <= v.
Definition nothing_common (offered implemented : list Z) : Prop :=
  forall v, In v offered -> ~ In v implemented.
(** The versions in which the bank offers a segment. *)
Definition offered (supported : list (bytes * Z)) (id : bytes) (v : Z) : Prop := In (id, v) supported.

Section Spec.
  Context {A Acc : Type}.
  Notation J := (job A).
  (** The jobs among the messages [l], sent after [h], each with everything that was
      sent before it. *)
  Fixpoint jobs (h l : list (entry J)) : list (list (entry J) * entry J) :=
    match l with
    | [] => []
    | e :: r => match kind_of e with
                | KJob _ => (h, e) :: jobs (h ++ [e]) r
                | _ => jobs (h ++ [e]) r
                end
    end.
  (** A request for one page. *)
  Definition asks (t : topic) (args : A) (mark : bytes) (x : list (entry J) * entry J) : Prop :=
    exists v, kind_of (snd x) = KJob (mkJob t v args mark).

  (** The continuation mark of an answer: the first parameter of the first
      acknowledgement with code 3040; empty if there is none. *)
  Definition continues (m : bank_message (oseg Acc)) (mark : bytes) : Prop :=
    (mark = [] /\ forall a, In a (bm_acks m) -> ack_code a <> 3040) \/
    exists before a after more,
      bm_acks m = before ++ a :: after /\ (forall x, In x before -> ack_code x <> 3040) /\
      ack_code a = 3040 /\ ack_params a = mark :: more.

  (** What the segments with an ID say, in their order. *)
  Definition contents {X} (f : bytes -> outcome X) (id : bytes) (m : bank_message (oseg Acc)) (xs : list X) : Prop :=
    Forall2 (fun s x => exists raw, s = OSeg raw /\ f raw = Ok x) (segs m id) xs.
End Spec.
