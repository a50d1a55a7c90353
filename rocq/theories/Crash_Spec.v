(** * Answers that crash a client, and answers that do not *)
From Verif Require Import Base Codec_Model Message_Model Dialog_Model Dialog_Spec Client_Model Client_Spec Seg_Model Seg_Spec Answer_Spec.
Open Scope Z_scope.

(** ** The bank's messages *)
(** Segments as the bank should write them, those included for which the library has no
    working reader. *)
Definition valid_piece (p : piece) : Prop :=
  header_ok (pc_pos p) (pc_ref p) /\ match pc_info p with IKept k => kept_ok k | i => info_ok i end.
Definition valid_letter (l : letter) : Prop := letter_form valid_piece l.
Definition crashing (l : letter) : Prop :=
  exists p k, In p (lt_pieces l) /\ pc_info p = IKept k /\ crashes k = true.
(** The bank's announcements: subject and body. *)
Definition letter_news (l : letter) : list (bytes * bytes) :=
  flat_map (fun p => match pc_info p with IKept (KNews subject body) => [(subject, body)] | _ => [] end) (lt_pieces l).
(** [l], as the answer to a message with the purpose [k], crashes the client: it has a
    segment whose reader crashes, or it answers an initialisation and its first
    announcement has no subject or no body. *)
Definition crashes_client {J} (k : kind J) (l : letter) : Prop :=
  crashing l \/ (is_init k /\ exists subject body r, letter_news l = (subject, body) :: r /\ (subject = [] \/ body = [])).
(** A bank that answers with such messages, or not at all. *)
Definition writes {J} (answer : list (entry J) -> option letter) (h : list (entry J)) : outcome bytes :=
  match answer h with Some l => Ok (letter_wire l) | None => Err end.
(** One of the answers to the messages [l], sent after [h], crashes the client. *)
Definition one_crashes {J} (answer : list (entry J) -> option letter) (h l : list (entry J)) : Prop :=
  exists before e after x, l = before ++ e :: after /\ answer (h ++ before ++ [e]) = Some x /\ crashes_client (kind_of e) x.

Section Calls.
  Context {J Acc : Type}.
  Variable bank : list (entry J) -> outcome bytes.
  Variable others : bytes -> Z -> option (bytes -> outcome (oseg Acc)).
  Notation answered := (answered bank others).
  (** Reading the answer to [e], which was sent after [h], crashes, or it is the answer to
      an initialisation, and the announcement in it has no subject or no body. *)
  Definition bad_answer (h : list (entry J)) (e : entry J) : Prop :=
    (exists raw, bank (h ++ [e]) = Ok raw /\ read_response others raw = Panic) \/
    (is_init (kind_of e) /\ exists m i r, answered h e m /\ assigns m i /\ params_readable m /\
       segs m (B "HIKIM") = ONews Panic :: r).
  (** One of the answers to the messages [l], sent after [h]. *)
  Definition one_bad (h l : list (entry J)) : Prop :=
    exists before e after, l = before ++ e :: after /\ bad_answer (h ++ before) e.

  (** A segment with the elements the dialog looks at. *)
  Definition filled (id : bytes) (s : oseg Acc) : Prop :=
    (id = B "HISYN" -> exists x, s = OSync x /\ x <> Panic) /\
    (id = B "HITANS" -> exists x, s = OTans x /\ x <> Panic) /\
    (id = B "HIBPA" -> exists x, s = OBpd x /\ x <> Panic) /\
    (id = B "HIPINS" -> exists x, s = OPins x /\ x <> Panic) /\
    (id = B "HIUPA" -> exists x, s = OUpd x /\ x <> Panic) /\
    (id = B "HIUPD" -> exists x, s = OAccount x /\ x <> Panic).
  Definition complete (m : bank_message (oseg Acc)) : Prop :=
    (exists i, assigns m i) /\ forall id s, In s (segs m id) -> filled id s.
  Definition news_complete (m : bank_message (oseg Acc)) : Prop :=
    forall s r, segs m (B "HIKIM") = s :: r -> exists x, s = ONews x /\ x <> Panic.
  (** The bank's answers to [l], sent after [h], if there are any, can be read, except that
      they may be faulty in ways the library reports as errors. *)
  Definition good_answer (h : list (entry J)) (e : entry J) : Prop :=
    bank (h ++ [e]) <> Panic /\
    forall raw, bank (h ++ [e]) = Ok raw ->
      read_response others raw <> Panic /\
      forall m, read_response others raw = Ok m -> complete m /\ (is_init (kind_of e) -> news_complete m).
  Definition all_good (h l : list (entry J)) : Prop :=
    forall before e after, l = before ++ e :: after -> good_answer (h ++ before) e.
End Calls.

Section Clients.
  Context {A Acc : Type}.
  Variable bank : list (entry (Client_Model.job A)) -> outcome bytes.
  Variable others : bytes -> Z -> option (bytes -> outcome (oseg Acc)).
  (** Answers to jobs whose contents can be read: no segment with the ID [id] crashes its
      reader [f], and a return code 3040 has a parameter. *)
  Definition contents_good {X} (f : bytes -> outcome X) (id : bytes) (h l : list (entry (Client_Model.job A))) : Prop :=
    forall before e after m, l = before ++ e :: after -> answered bank others (h ++ before) e m -> is_job (kind_of e) ->
      (forall s, In s (segs m id) -> exists raw, s = OSeg raw /\ f raw <> Panic) /\
      (forall a, In a (bm_acks m) -> ack_code a = 3040 -> ack_params a <> []).
End Clients.
