(** * The text of a status report (domain/acknowledgement.go) *)
From Verif Require Import Base Message_Model Seg_Model.
Open Scope Z_scope.

Section Text.
  (** The verb %s for a time.Time: its String method, not modelled. *)
  Variable moment : Z -> bytes.
  (** domain/acknowledgement.go:102-123 StatusAcknowledgement.String *)
  Definition status_string (s : status_ack) : bytes :=
    let a := sa_ack s in
    (if ack_for_message a then B "MessageAcknowledgement" else B "SegmentAcknowledgement")
    ++ B " for message " ++ itoa (snd (ack_ref_msg a)) ++ B " (" ++ fst (ack_ref_msg a) ++ B ")"
    ++ (if 0 <? ack_ref_seg a then B ", segment " ++ itoa (ack_ref_seg a) ++ B ": " else B ": ")
    ++ B "Transmitted at: " ++ moment (sa_at s) ++ B ", "
    ++ B "Code: " ++ itoa (ack_code a) ++ B ", "
    ++ (match ack_elem a with [] => B "Position: none, " | e => B "Position: " ++ e ++ B ", " end)
    ++ B "Text: '" ++ ack_text a ++ B "'"
    ++ (match ack_params a with [] => [] | ps => B ", Parameters: " ++ join (B ", ") ps end).
End Text.
