(** * Model of the log of a dialog

    transport/middleware/logging.go and internal/logger.go: what the transport of
    every PIN/TAN dialog (dialog/pin_tan_dialog.go:46-55) does besides passing
    requests and answers on. *)
From Verif Require Import Base Lexer_Model Codec_Model Wire_Model Message_Model Transport_Model.
Open Scope Z_scope.

(** One write to the log: through log.Logger, which puts prefix, time and place before
    the text (not modelled), or straight to its writer. *)
Inductive log_entry :=
| Note (text : bytes)
| Line (w : bytes).
Definition b_tab : byte := "009"%byte.
Definition nl : byte := "010"%byte.

Section Logging.
  (** The readers of segments (see [Message_Model.known]) and the text fmt prints for the
      message header (segment/segment.go:84-94; fmt recovers panics of String methods). *)
  Context {P : Type} (others : bytes -> Z -> option (bytes -> outcome P)) (header_text : msg_header -> bytes).

  (** logging.go:83-103 writeRawSegments; an error is answered with the raw message in
      lines 32-34 and 48-50. *)
  Definition write_raw_segments (raw : bytes) : outcome (list log_entry) :=
    match message_extract raw with
    | Ok segs => Ok (map (fun s => Line (B ">>" ++ s ++ [nl])) segs)
    | Err => Ok [Note (raw ++ [nl])]
    | Panic => Panic
    end.
  (** logging.go:57-81 writeMessage with readMessageData (105-132) and the extract functions
      (134-179), which repeat dialog/dialog.go:603-678.  The writer does not fail:
      internal/logger.go:70-75 returns no error, and os.Stderr is taken to have none; the
      message is a decryptedMessage, which has MarshaledSegments. *)
  Definition write_message (raw : bytes) : outcome (list log_entry) :=
    match read_response others raw with
    | Panic => Panic
    | Err => write_raw_segments raw
    | Ok m => Ok (Line (b_tab :: header_text (bm_header m) ++ [nl]) ::
                  map (fun s => Line (b_tab :: s ++ [nl])) (bm_raw m))
    end.
  (** logging.go:24-53: the outcome and what is written.  Error texts are not modelled. *)
  Definition logged_do (t : transport) (url : bytes) (chunks : list bytes) : outcome body * list log_entry :=
    let request := List.concat chunks in
    let l0 := [Note (B "Decrypted Request:")] in
    match write_message request with
    | Ok l1 =>
        match t url [request] with
        | Ok resp =>
            let l2 := l0 ++ l1 ++ (if snd resp then [] else [Note (B "Error reading response body: ")]) ++
                      [Note (B "Decrypted Response:")] in
            match write_message (fst resp) with
            | Ok l3 => (Ok (fst resp, true), l2 ++ l3)
            | _ => (Panic, l2)
            end
        | Err => (Err, l0 ++ l1 ++ [Note (B "Error executing request:")])
        | Panic => (Panic, l0 ++ l1)
        end
    | _ => (Panic, l0)
    end.
  (** internal/logger.go:46-70: the writer of the debug logger drops everything unless debug
      mode is on.  Simplification: the mode does not change during an exchange. *)
  Definition written (debug : bool) (l : list log_entry) : list log_entry := if debug then l else [].
  Definition logged (t : transport) : transport := fun url chunks => fst (logged_do t url chunks).
  Definition log_of (debug : bool) (t : transport) (url : bytes) (chunks : list bytes) : list log_entry :=
    written debug (snd (logged_do t url chunks)).
End Logging.
