(** * What the text of a status report says *)
From Verif Require Import Base Message_Model Seg_Model.
Open Scope Z_scope.

(** [line] says what [a] refers to, when it was transmitted, its code, the data element, the
    bank's text and its parameters, each as it is. *)
Definition reports (line : bytes) (a : ack) (transmitted : bytes) : Prop :=
  exists what segment position params,
    line = what ++ B " for message " ++ itoa (snd (ack_ref_msg a)) ++ B " (" ++ fst (ack_ref_msg a) ++ B ")" ++ segment ++
           B ": Transmitted at: " ++ transmitted ++
           B ", Code: " ++ itoa (ack_code a) ++ B ", Position: " ++ position ++ B ", Text: '" ++ ack_text a ++ B "'" ++ params /\
    what = (if ack_for_message a then B "MessageAcknowledgement" else B "SegmentAcknowledgement") /\
    (ack_ref_seg a <= 0 /\ segment = [] \/ 0 < ack_ref_seg a /\ segment = B ", segment " ++ itoa (ack_ref_seg a)) /\
    (ack_elem a = [] /\ position = B "none" \/ ack_elem a <> [] /\ position = ack_elem a) /\
    (ack_params a = [] /\ params = [] \/
     exists p ps, ack_params a = p :: ps /\ params = B ", Parameters: " ++ p ++ flat_map (fun q => B ", " ++ q) ps).
(** The bytes of a report that come from the bank as they are. *)
Definition texts_of (a : ack) : list bytes := fst (ack_ref_msg a) :: ack_elem a :: ack_text a :: ack_params a.
