(** * The reader of whole messages and its lookups *)
From Verif Require Import Base Codec_Model Wire_Model Message_Model.
Open Scope Z_scope.

Section Unmarshaler.
  (** The readers of the segments that are not acknowledgements, as in [Message_Model.v]. *)
  Context {P : Type} (others : bytes -> Z -> option (bytes -> outcome P)).

  (** message/unmarshaler.go:20-24 Unmarshaler; the map from IDs to segments as the list
      of its entries in the order in which they were added *)
  Record unmarshaler := mkUm { um_extractor : seg_extractor; um_segments : list (bytes * parsed P) }.
  (** message/unmarshaler.go:11-17 *)
  Definition new_unmarshaler (raw : bytes) : unmarshaler := mkUm (new_segment_extractor raw) [].
  (** message/unmarshaler.go:43-65: the loop of Unmarshal; segments read before an error stay *)
  Fixpoint read_loop (segs : list bytes) (acc : list (bytes * parsed P)) : list (bytes * parsed P) * outcome unit :=
    match segs with
    | [] => (acc, Ok tt)
    | s :: r =>
        match unmarshal_one others s with
        | Ok None => read_loop r acc
        | Ok (Some e) => read_loop r (acc ++ [e])
        | Err => (acc, Err)
        | Panic => (acc, Panic)
        end
    end.
  (** message/unmarshaler.go:38-67 Unmarshal: all segments the extractor has are read, those
      of earlier calls again *)
  Definition unmarshal (u : unmarshaler) : unmarshaler * outcome unit :=
    match se_extract (um_extractor u) with
    | (x, Ok segs) => let (acc, r) := read_loop segs (um_segments u) in (mkUm x acc, r)
    | (x, Err) => (mkUm x (um_segments u), Err)
    | (x, Panic) => (mkUm x (um_segments u), Panic)
    end.
  (** message/unmarshaler.go:70-98 UnmarshalSegment and extractSegment *)
  Definition unmarshal_segment (id : bytes) (version : Z) (u : unmarshaler) : unmarshaler * outcome (parsed P) :=
    match known others id version with
    | None => (u, Err)
    | Some read =>
        let (x, r) := se_extract (um_extractor u) in
        (mkUm x (um_segments u),
         do _ <- r;
         match find_segment x id with None => Err | Some s => read s end)
    end.
  (** message/unmarshaler.go:101-127 SegmentsByID, SegmentByID (nil if none),
      MarshaledSegmentsByID, MarshaledSegmentByID, MarshaledSegments *)
  Definition um_segments_by_id (id : bytes) (u : unmarshaler) : list (parsed P) := segments_by_id id (um_segments u).
  Definition um_segment_by_id (id : bytes) (u : unmarshaler) : option (parsed P) :=
    match um_segments_by_id id u with [] => None | p :: _ => Some p end.
  Definition um_marshaled_by_id (id : bytes) (u : unmarshaler) : list bytes := find_segments (um_extractor u) id.
  Definition um_marshaled_one (id : bytes) (u : unmarshaler) : option bytes := find_segment (um_extractor u) id.
  Definition um_marshaled (u : unmarshaler) : list bytes := se_segments (um_extractor u).
  (** message/decryption.go:88-103 SegmentPosition of a decrypted message *)
  Definition segment_position (id : bytes) (u : unmarshaler) : outcome Z :=
    match um_marshaled_one id u with
    | None | Some [] => Ok (-1)
    | Some s =>
        match segment_extract s with
        | Ok (e :: _) => match unmarshal_header e with Ok h => Ok (sh_pos h) | Err => Ok (-1) | Panic => Panic end
        | Ok [] => Panic
        | Err => Ok (-1)
        | Panic => Panic
        end
    end.

  (** Calls of one Unmarshaler one after the other. *)
  Inductive um_op := Unmarshal | UnmarshalSegment (id : bytes) (version : Z).
  Definition um_step (u : unmarshaler) (o : um_op) : unmarshaler :=
    match o with Unmarshal => fst (unmarshal u) | UnmarshalSegment id v => fst (unmarshal_segment id v u) end.
  Definition um_run (h : list um_op) (u : unmarshaler) : unmarshaler := fold_left um_step h u.
End Unmarshaler.
