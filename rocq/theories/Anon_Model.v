(** * Model of the anonymous client

    client/client.go:362-379 with segment/communication_access.go:8-40; the anonymous
    dialog is dialog/dialog.go:232-335, [send_anonymous] of Dialog_Model. *)
From Verif Require Import Base Lexer_Model Codec_Model Wire_Model Message_Model Dialog_Model Merge_Model
  Client_Model Time_Model Seg_Model Request_Model.
Open Scope Z_scope.

(** What is asked for: the institutes from [from] to [to], at most [max] of them. *)
Record access := mkAccess { ax_from : bank_ref; ax_to : bank_ref; ax_max : Z }.
(** The jobs of an AnonymousClient: its own one and, since it embeds a Client
    (client.go:364-366), those of a Client. *)
Definition ajob : Type := access + Client_Model.job args.

(** segment/communication_access.go:8-19, 29-40, with the empty continuation reference of
    client.go:373: its element stays nil.  NewBasicSegment makes the header with the
    number 2, which SetSegmentPositions replaces. *)
Definition kom_seg (a : access) : seg :=
  mkSeg (B "HKKOM") 2 3 None [bank_de (ax_from a); bank_de (ax_to a); number_de (ax_max a); None].

(** What the message is about for the parts of the model without this job; [None] for this job. *)
Definition common_kind (k : kind ajob) : option (kind (Client_Model.job args)) :=
  match k with
  | KSync client => Some (KSync client)
  | KInit client system bpd upd => Some (KInit client system bpd upd)
  | KJob (inl _) => None
  | KJob (inr j) => Some (KJob j)
  | KEnd dialog => Some (KEnd dialog)
  end.

Section Anonymous.
  Variable render : seg -> bytes.
  Variable st : settings.
  Variable today : list (entry ajob) -> date.
  Variable signed_at enveloped_at : list (entry ajob) -> date * tod.

  (** dialog/dialog.go:239-241 newBasicMessage, SetSegmentPositions and MarshalHBCI of the
      message of client.go:374, which has one segment; the other messages as before.  A
      signed message with this job is never made: client.go:374 sends it anonymously. *)
  Definition anon_bytes (h : list (entry ajob)) (q : request ajob) : outcome bytes :=
    match common_kind (rq_kind q) with
    | Some k =>
        request_bytes render st (fun _ => today h) (fun _ => signed_at h) (fun _ => enveloped_at h) []
          (mkRq k (rq_dialog q) (rq_number q) (rq_sig q) (rq_crypt q))
    | None =>
        match rq_kind q, rq_sig q, rq_crypt q with
        | KJob (inl a), None, None =>
            let body := [Some (kom_seg a)] in
            do m <- set_positions
                      (new_message (new_msg_header (-1) (st_version st) (rq_dialog q) (rq_number q)) (mkME (-1) (Some (rq_number q)))
                         (pointers 0 body) (objects body));
            snd (marshal_msg m)
        | _, _, _ => Panic
        end
    end.

  Context {Acc : Type}.
  Variable bank : list (entry ajob) -> outcome bytes.
  Variable others : bytes -> Z -> option (bytes -> outcome (oseg Acc)).
  (** client/client.go:372-379 CommunicationAccess: the message from the bank; the text
      fmt.Sprintf("%+#v") makes of it is not modelled. *)
  Definition communication_access (from to : bank_ref) (max : Z) : act (reply (Acc := Acc)) :=
    send_anonymous anon_bytes bank others (inl (mkAccess from to max)).
End Anonymous.
